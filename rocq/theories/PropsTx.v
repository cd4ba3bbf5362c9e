(** Properties C14-C20: transaction logs. *)
From Coq Require Import Permutation.
From Verif Require Import Base BaseFacts LayoutSpec BaseBlock Types Parser TxLog TxSpec TxParse TxApply
  TxBuild Demo DemoExport.

(** C14: a log file as written, followed by anything that is not an entry. *)
Theorem C14_log_round_trip : forall h ws junk,
  512 = len h -> bytes_at h 0 4 = REGF -> Forall w_ok ws ->
  entry_from_bytes (len (h ++ log_bytes ws ++ junk)) junk = Err ->
  exists l, log_from_bytes (h ++ log_bytes ws ++ junk) = Ok l
    /\ bbb_from_bytes h = Ok (tl_base_block l, [])
    /\ tl_base_bytes l = h
    /\ entries_say 512 ws (tl_entries l).
Proof. exact log_parse. Qed.
Print Assumptions C14_log_round_trip.
Example C14_example :
  let h := firstn 512 (header 5 5 32 4096) in
  let ws := [mkW 0 5 8192 [(0, [1; 2]); (512, []); (4096, [3])] [9; 9]; demo_entry 6 7] in
  512 = len h /\ bytes_at h 0 4 = REGF /\ Forall w_ok ws
  /\ entry_from_bytes (len (h ++ log_bytes ws ++ [0; 0])) [0; 0] = Err
  /\ match log_from_bytes (h ++ log_bytes ws ++ [0; 0]) with
     | Ok l => map (fun e => (le_seq e, le_valid_hashes e)) (tl_entries l) = [(5, true); (6, true)]
     | _ => False
     end.
Proof.
  split; [vm_compute; reflexivity|]. split; [vm_compute; reflexivity|].
  split; [|split; vm_compute; reflexivity].
  repeat constructor; vm_compute; try reflexivity; discriminate.
Qed.

(** C15: the log cut [n] bytes after its header, and inside its header. *)
Theorem C15_torn_log : forall h ws n,
  512 = len h -> bytes_at h 0 4 = REGF -> Forall w_ok ws -> n <= len (log_bytes ws) ->
  exists l, log_from_bytes (firstn (N.to_nat (512 + n)) (h ++ log_bytes ws)) = Ok l
    /\ bbb_from_bytes h = Ok (tl_base_block l, [])
    /\ tl_base_bytes l = h
    /\ entries_say 512 (complete ws n) (tl_entries l).
Proof. exact torn_log. Qed.
Print Assumptions C15_torn_log.
Theorem C15_torn_header : forall h ws n, 512 = len h -> n < 512 ->
  log_from_bytes (firstn (N.to_nat n) (h ++ log_bytes ws)) = Err.
Proof. exact torn_header. Qed.
Print Assumptions C15_torn_header.
(** What a cut log makes the parser apply is a prefix of what the whole log does. *)
Theorem C15_torn_log_applies_prefix : forall sec es k l m,
  applied sec (firstn k es) l -> applied sec es m -> exists t, m = l ++ t.
Proof. exact applied_torn. Qed.
Print Assumptions C15_torn_log_applies_prefix.
Theorem C15_log_parsing_terminates : forall i, log_from_bytes i <> OutOfFuel.
Proof. exact log_from_bytes_fuel. Qed.
Print Assumptions C15_log_parsing_terminates.
Example C15_example :
  let ws := [demo_entry 5 1; demo_entry 6 2] in
  map (fun n => len (complete ws n)) [0; 51; 52; 103; 104] = [0; 0; 1; 1; 2]
  /\ len (log_bytes ws) = 104.
Proof. vm_compute. split; reflexivity. Qed.
(** A log that is not the beginning of a written one can abort the parser: an
    entry whose size field is below 40. *)
Theorem C15_short_entry_refuted : exists h junk,
  512 = len h /\ bytes_at h 0 4 = REGF /\ bytes_ok junk /\ log_from_bytes (h ++ junk) = Panic.
Proof.
  exists (firstn 512 (header 5 5 32 4096)), (HVLE ++ enc 4 39 ++ repeat 0 32).
  split; [vm_compute; reflexivity|]. split; [vm_compute; reflexivity|].
  split; [|vm_compute; reflexivity]. repeat constructor; reflexivity.
Qed.
Print Assumptions C15_short_entry_refuted.

(** C16 and C17 for one log: the entries applied and the bytes they leave, with
    either outcome. *)
Theorem C16_applied_entries : forall order fuel l p items sec hbins bb r,
  ps_base_block p = Some bb -> bb_secondary_seq (bb_base bb) = sec ->
  bb_hive_bins_data_size (bb_base bb) = hbins -> 0 < sec ->
  Forall (fun e => u32 (le_seq e)) (tl_entries l) ->
  update_parser order fuel l p items = r -> r <> Panic -> r <> OutOfFuel ->
  exists a, applied sec (tl_entries l) a
  /\ ((r = Err /\ ~ fits (ps_hbin p) hbins (len (ps_buffer p)) a)
      \/ (exists items' p', r = Ok (last_seq a, items', p')
          /\ fits (ps_hbin p) hbins (len (ps_buffer p)) a
          /\ overlaid (ps_hbin p) hbins a (ps_buffer p) (ps_buffer p')
          /\ ps_hbin p' = ps_hbin p /\ ps_base_block p' = ps_base_block p
          /\ ps_recover p' = ps_recover p)).
Proof. exact update_parser_spec. Qed.
Print Assumptions C16_applied_entries.
(** The specification determines the entries. *)
Theorem C16_applied_entries_exist : forall sec es, 0 < sec -> exists l, applied sec es l.
Proof. exact applied_exists. Qed.
Print Assumptions C16_applied_entries_exist.
Theorem C16_applied_entries_unique : forall sec es l m, applied sec es l -> applied sec es m -> l = m.
Proof. exact applied_unique. Qed.
Print Assumptions C16_applied_entries_unique.

(** C16 and C17 for a whole hive with any number of logs. *)
Theorem C17_recovered_hive : forall order fuel hash recover full buffer files logs w p,
  bytes_ok buffer -> Forall bytes_ok files -> known_file_type buffer -> checksum_right buffer ->
  num_at buffer 4 4 <> num_at buffer 8 4 -> 0 < num_at buffer 8 4 ->
  parse_logs files = Ok (logs, w) -> logs <> [] ->
  build order fuel hash recover full buffer files = Ok p ->
  exists es m bb, log_chain (num_at buffer 8 4) 0 logs es m
    /\ recovered (num_at buffer 40 4) es m buffer (ps_buffer p)
    /\ ps_base_block p = Some bb
    /\ bb_from_bytes (ps_buffer p) = Ok (bb, rest_at (ps_buffer p) 4096).
Proof. exact build_dirty. Qed.
Print Assumptions C17_recovered_hive.
Theorem C17_log_chain_exists : forall sec n logs, 0 < sec -> exists es m, log_chain sec n logs es m.
Proof. exact chain_total. Qed.
Print Assumptions C17_log_chain_exists.
Theorem C17_log_chain_unique : forall sec n logs es m es' m',
  log_chain sec n logs es m -> log_chain sec n logs es' m' -> es = es' /\ m = m'.
Proof. exact chain_functional. Qed.
Print Assumptions C17_log_chain_unique.
(** A hive whose header checksum is wrong takes the header of the newest log. *)
Theorem C17_bad_checksum : forall order fuel hash recover full buffer files logs w p,
  bytes_ok buffer -> Forall bytes_ok files -> known_file_type buffer -> ~ checksum_right buffer ->
  parse_logs files = Ok (logs, w) -> logs <> [] ->
  build order fuel hash recover full buffer files = Ok p ->
  exists f newest b0, In f files /\ log_from_bytes f = Ok newest
    /\ List.last (map Some logs) None = Some newest
    /\ header_of f buffer b0
    /\ (num_at b0 4 4 = num_at b0 8 4 -> ps_buffer p = b0)
    /\ (num_at b0 4 4 <> num_at b0 8 4 -> 0 < num_at b0 8 4 ->
        exists es m, log_chain (num_at b0 8 4) 0 (if 1 <? len logs then tl logs else logs) es m
          /\ recovered (num_at b0 40 4) es m b0 (ps_buffer p)).
Proof. exact build_bad. Qed.
Print Assumptions C17_bad_checksum.
(** Two logs with overlapping pages, the second grows the file. *)
Definition example_logs : list (list N) :=
  [log_file 7 [mkW 0 7 8192 [(118, [9; 9; 9]); (4000, [4])] []];
   log_file 5 [demo_entry 4 8; demo_entry 5 1; demo_entry 6 2]].
Example C17_example :
  let b := small_hive 6 5 in
  known_file_type b /\ checksum_right b /\ num_at b 4 4 <> num_at b 8 4 /\ 0 < num_at b 8 4
  /\ match parse_logs example_logs with Ok (logs, _) => len logs = 2 | _ => False end
  /\ exists p, build keep 10 no_hash false false b example_logs = Ok p
     /\ num_at (ps_buffer p) 4 4 = 7 /\ len (ps_buffer p) = len b + 4096
     /\ bytes_at (ps_buffer p) 4214 8 = [9; 9; 9; 2; 2; 2; 0; 0]
     /\ bytes_at (ps_buffer p) 8096 2 = [4; 0].
Proof.
  cbv zeta. split; [left; vm_compute; reflexivity|]. split; [vm_compute; reflexivity|]. split; [vm_compute; discriminate|].
  split; [vm_compute; reflexivity|]. split; [vm_compute; reflexivity|].
  refine (checked _ (fun p => (num_at (ps_buffer p) 4 4 =? 7) && (len (ps_buffer p) =? len (small_hive 6 5) + 4096)
    && beq (bytes_at (ps_buffer p) 4214 8) [9; 9; 9; 2; 2; 2; 0; 0] && beq (bytes_at (ps_buffer p) 8096 2) [4; 0]) _ _ _); [|vm_compute; reflexivity].
  intros p H. apply andb_true_iff in H as (H & D). apply andb_true_iff in H as (H & C). apply andb_true_iff in H as (A & B).
  apply N.eqb_eq in A, B. apply beq_eq in C, D. auto.
Qed.
(** The size of the file is not that of the last entry: every entry that is
    larger than the hive was grows the file again. *)
Theorem C17_growth_refuted : exists buffer files p,
  checksum_right buffer /\ num_at buffer 40 4 = 4096
  /\ (forall f l e, In f files -> log_from_bytes f = Ok l -> In e (tl_entries l) ->
        le_hbins_size e = 8192)
  /\ build keep 10 no_hash false false buffer files = Ok p
  /\ len (ps_buffer p) = len buffer + 4096 + 4096.
Proof.
  exists (small_hive 6 5), [log_file 5 [mkW 0 5 8192 [] []; mkW 0 6 8192 [] []]].
  assert (X : exists p, build keep 10 no_hash false false (small_hive 6 5) [log_file 5 [mkW 0 5 8192 [] []; mkW 0 6 8192 [] []]] = Ok p
    /\ len (ps_buffer p) = len (small_hive 6 5) + 4096 + 4096).
  { refine (checked _ (fun p => len (ps_buffer p) =? len (small_hive 6 5) + 4096 + 4096) _ _ _); [|vm_compute; reflexivity]. intros p H. now apply N.eqb_eq. }
  destruct X as (p & E & L). exists p. split; [vm_compute; reflexivity|]. split; [vm_compute; reflexivity|]. split.
  - intros f l e [<-|[]] F. vm_compute in F. injection F as <-. intros [<-|[<-|[]]]; reflexivity.
  - split; [exact E|exact L].
Qed.
Print Assumptions C17_growth_refuted.
(** Across logs the numbers need not follow each other: here 5 and 6 are
    applied, then 9 (the log's header says 7), so that 7 and 8 are missing. *)
Definition applied_bytes (files : list (list N)) : option (list N * N) :=
  match build keep 10 no_hash false false (small_hive 6 5) files with
  | Ok p => Some (bytes_at (ps_buffer p) 4216 4, num_at (ps_buffer p) 4 4)
  | _ => None
  end.
Theorem C16_gap_between_logs_refuted :
  applied_bytes [log_file 5 [demo_entry 5 1; demo_entry 6 2]; log_file 7 [demo_entry 9 3]]
  = Some ([3; 3; 3; 3], 9).
Proof. vm_compute. reflexivity. Qed.
Print Assumptions C16_gap_between_logs_refuted.
(** A damaged log in between also lifts the check of the next log's header. *)
Theorem C16_damaged_log_restarts_refuted :
  applied_bytes [log_file 5 [demo_entry 5 1; demo_entry 6 2]; log_file 7 []; log_file 20 [demo_entry 20 3]]
  = Some ([3; 3; 3; 3], 20).
Proof. vm_compute. reflexivity. Qed.
Print Assumptions C16_damaged_log_restarts_refuted.

(** C18 *)
Theorem C18_log_order : forall order fuel hash recover full buffer files files',
  Forall bytes_ok files -> Permutation files files' ->
  (forall f g, In f files -> In g files -> num_at f 4 4 = num_at g 4 4 -> f = g) ->
  build order fuel hash recover full buffer files = build order fuel hash recover full buffer files'.
Proof. exact num_perm. Qed.
Print Assumptions C18_log_order.
Example C18_example :
  (forall f g, In f example_logs -> In g example_logs -> num_at f 4 4 = num_at g 4 4 -> f = g)
  /\ exists p, build keep 10 no_hash false false (small_hive 6 5) (rev example_logs) = Ok p /\ num_at (ps_buffer p) 4 4 = 7.
Proof.
  split.
  2:{ refine (checked _ (fun p => num_at (ps_buffer p) 4 4 =? 7) _ _ _); [|vm_compute; reflexivity]. intros p H. now apply N.eqb_eq. }
  intros f g [<-|[<-|[]]] [<-|[<-|[]]] H; try reflexivity; vm_compute in H; discriminate.
Qed.
(** With equal numbers in the headers the order decides. *)
Theorem C18_equal_numbers_refuted :
  applied_bytes [log_file 5 [demo_entry 5 1]; log_file 5 [demo_entry 5 2]]
  <> applied_bytes [log_file 5 [demo_entry 5 2]; log_file 5 [demo_entry 5 1]].
Proof. vm_compute. discriminate. Qed.
Print Assumptions C18_equal_numbers_refuted.

(** C19: for logs that do not abort the log parser (see C15). *)
Theorem C19_clean_hive : forall order fuel hash recover full buffer files logs w,
  known_file_type buffer -> checksum_right buffer -> num_at buffer 4 4 = num_at buffer 8 4 ->
  parse_logs files = Ok (logs, w) ->
  match build order fuel hash recover full buffer files, build order fuel hash recover full buffer [] with
  | Ok p, Ok q => same_parser p q
  | Err, Err | Panic, Panic | OutOfFuel, OutOfFuel => True
  | _, _ => False
  end.
Proof. exact build_clean. Qed.
Print Assumptions C19_clean_hive.
Theorem C19_same_iteration : forall p q fuel f ancestors modified post, same_parser p q ->
  iterate fuel p f ancestors modified post = iterate fuel q f ancestors modified post.
Proof. exact same_parser_iterate. Qed.
Print Assumptions C19_same_iteration.
Example C19_example :
  let b := small_hive 6 6 in
  known_file_type b /\ checksum_right b /\ num_at b 4 4 = num_at b 8 4
  /\ exists p, build keep 10 no_hash true false b example_logs = Ok p /\ ps_buffer p = b.
Proof.
  cbv zeta. split; [left; vm_compute; reflexivity|]. split; [vm_compute; reflexivity|]. split; [vm_compute; reflexivity|].
  refine (checked _ (fun p => beq (ps_buffer p) (small_hive 6 6)) _ _ _); [|vm_compute; reflexivity]. intros p H. now apply beq_eq.
Qed.

(** C20: the header after recovery. [m] is 0 when the last log used had no
    entry to apply. *)
Theorem C20_header_after_recovery : forall order fuel hash recover full buffer files logs w p,
  bytes_ok buffer -> Forall bytes_ok files -> known_file_type buffer -> checksum_right buffer ->
  num_at buffer 4 4 <> num_at buffer 8 4 -> 0 < num_at buffer 8 4 ->
  parse_logs files = Ok (logs, w) -> logs <> [] ->
  build order fuel hash recover full buffer files = Ok p ->
  exists es m bb, log_chain (num_at buffer 8 4) 0 logs es m
    /\ (m = 0 \/ m = last_seq es)
    /\ (num_at (ps_buffer p) 4 4 = m /\ num_at (ps_buffer p) 8 4 = m /\ checksum_right (ps_buffer p))
    /\ (forall i, i < 4 \/ 12 <= i < 508 \/ 512 <= i < 4096 ->
          nth (N.to_nat i) (ps_buffer p) 0 = nth (N.to_nat i) buffer 0)
    /\ ps_base_block p = Some bb
    /\ bb_from_bytes (ps_buffer p) = Ok (bb, rest_at (ps_buffer p) 4096).
Proof. exact header_after. Qed.
Print Assumptions C20_header_after_recovery.
(** With one log the number is always that of the last applied entry. *)
Theorem C20_one_log : forall sec l es m, log_chain sec 0 [l] es m ->
  m = last_seq es /\ (es <> [] -> sec <= log_primary l /\ applied sec (tl_entries l) es).
Proof. exact chain_single. Qed.
Print Assumptions C20_one_log.
(** If no entry is applicable, the header's numbers are not kept: they become 0. *)
Theorem C20_nothing_applied_refuted :
  applied_bytes [log_file 5 [demo_entry 3 1]] = Some ([0; 0; 0; 0], 0).
Proof. vm_compute. reflexivity. Qed.
Print Assumptions C20_nothing_applied_refuted.
(** The same happens after entries 5 and 6 were applied, if a further log is used
    that has no usable entry. *)
Theorem C20_number_lost_refuted :
  applied_bytes [log_file 5 [demo_entry 5 1; demo_entry 6 2]; log_file 7 []]
  = Some ([2; 2; 2; 2], 0).
Proof. vm_compute. reflexivity. Qed.
Print Assumptions C20_number_lost_refuted.
