(** The property of a run of the dump tool over a folder: statements only, with a
    concrete case beside each. The specifications are FolderSpec.v, DumpSpec.v and PartSpec.v. *)
From Coq Require Import String Permutation.
From Verif Require Import Base BaseFacts Util UtilSpec UtilText LayoutSpec BaseBlock Types Value Node Recover Parser TxLog TxSpec
  CellSpec CellList TreeSpec TreeCount TreeOpen AnyFile Pure TreeSession Log Export ExportSpec Xlsx Json JsonSpec Folder FolderSpec FolderFacts AbortSpec
  Show ShowSpec XlsxSpec PartSpec PartFacts PropsPart Dump DumpSpec DumpFacts Demo DemoCell DemoTree DemoCompare DemoExport PropsTree PropsExport PropsJson PropsAbort.
Open Scope string_scope.
Open Scope N_scope.
Open Scope list_scope.

(** ** C67 *)
(** A run that goes through leaves the output of each hive under its own name, as
    its bytes and the logs beside it make it; the output folder is otherwise as it
    was. *)
Theorem C67_outputs : forall o n c f outs final, plain_folder f -> dump_folder o n c f outs = Finished final ->
  (forall p b logs, In (p, b) f -> hive_file p b -> used_logs (ch_skip_logs c) f p logs -> exists name, named_after p (extension_of (ch_type c)) name
     /\ match reg_dump o n c b logs with
        | NotOpened => output final name = output outs name
        | Written out => output final name = Some out
        | GivenUp => output final name = Some (os_left o)
        | Aborted | Endless => False
        end)
  /\ (forall name, output final name <> output outs name -> exists p b, In (p, b) f /\ hive_file p b /\ named_after p (extension_of (ch_type c)) name).
Proof. exact run_outputs. Qed.
Print Assumptions C67_outputs.
(** No harmless folder stops a run, with any choices. *)
Theorem C67_never_stopped : forall o n c f outs, (forall m, Permutation (os_order o m) m) -> harmless c f ->
  (forall outs', dump_folder o n c f outs <> Stopped outs')
  /\ (forall outs', dump_folder o n c f outs = Hanging outs' ->
      exists p b logs, In (p, b) f /\ hive_file p b /\ used_logs (ch_skip_logs c) f p logs /\ reg_dump o n c b logs = Endless).
Proof. intros o n c f outs P H. split; [exact (run_not_stopped o n c f outs P H)|exact (run_hanging o n c f outs)]. Qed.
Print Assumptions C67_never_stopped.
(** In every format it goes through, also with recovery if no logs are to be
    replayed. Missing: recovery with logs, for which it is false (C51_two_roots_refuted). *)
Theorem C67_complete_partial : forall o c f, (forall m, Permutation (os_order o m) m) -> harmless c f -> recovery_ends c f -> no_cycles o c f ->
  exists bound, forall n outs, (bound < n)%nat -> exists final, dump_folder o n c f outs = Finished final.
Proof. exact run_complete. Qed.
Print Assumptions C67_complete_partial.
(** A hive that is opened is then written, in these formats. *)
Theorem C67_written : forall o n c b logs, (forall m, Permutation (os_order o m) m) -> ch_type c <> XlsxOut -> (ch_type c = CommonOut -> known_file_type b) ->
  reg_dump o n c b logs <> GivenUp.
Proof. exact dump_text. Qed.
Print Assumptions C67_written.

(** A well-formed hive in the folder is found in the output folder as the tree that
    it holds, whatever the other files are; with a path on the command line, as the
    part of the tree at and below it. *)
Theorem C67_json : forall o n c f outs final p b logs q t segs, plain_folder f -> dump_folder o n c f outs = Finished final ->
  ch_type c = JsonlOut -> ch_recover c = false ->
  In (p, b) f -> hive_file p b -> used_logs (ch_skip_logs c) f p logs ->
  known_file_type b -> build (os_order o) n (os_hash o) false (ch_full c) b logs = Ok q -> hive (ps_buffer q) t -> (2 * List.length (positions t) < n)%nat ->
  asked (ch_filter c) segs -> (ch_filter c <> None -> clean_names t) ->
  exists name out js, named_after p (text "jsonl") name /\ output final name = Some out
  /\ read_lines out js /\ Forall2 (tree_doc (ps_buffer q)) (part segs t) js.
Proof.
  intros o n c f outs final p b logs q t segs PF E T RC I HF U K B HV L AS CN. destruct (C67_outputs o n c f outs final PF E) as (A & _).
  destruct (A p b logs I HF U) as (name & NA & O). rewrite T in NA. exists name.
  assert (OP : opens b logs t q) by (split; [exact K|]; split; [exact HV|]; now exists (os_order o), n, (os_hash o), (ch_full c)).
  destruct (C60_part (ch_filter c) segs b logs t q n (os_items o) OP AS CN L) as (out & js & W & R & D).
  unfold reg_dump in O. rewrite RC, B, T in O. change (chosen_filter c) with (path_filter (ch_filter c)) in O. cbv zeta in O. rewrite W in O. exists out, js. auto.
Qed.
Print Assumptions C67_json.
Theorem C67_common : forall o n c f outs final p b logs q t segs, plain_folder f -> dump_folder o n c f outs = Finished final ->
  ch_type c = CommonOut -> ch_recover c = false -> (forall z, plain (rd_date (os_render o) z)) ->
  In (p, b) f -> hive_file p b -> used_logs (ch_skip_logs c) f p logs ->
  known_file_type b -> build (os_order o) n (os_hash o) false (ch_full c) b logs = Ok q -> hive (ps_buffer q) t -> (2 * List.length (positions t) < n)%nat ->
  asked (ch_filter c) segs -> (ch_filter c <> None -> clean_names t) ->
  exists name out rows totals, named_after p (text "txt") name /\ output final name = Some out
  /\ reads_as 44 out (map Comment common_header ++ map Row rows ++ map Comment totals)
  /\ Forall2 tree_row (part_items segs t) rows /\ Forall2 (total_right rows) totals_shown totals.
Proof.
  intros o n c f outs final p b logs q t segs PF E T RC PD I HF U K B HV L AS CN. destruct (C67_outputs o n c f outs final PF E) as (A & _).
  destruct (A p b logs I HF U) as (name & NA & O). rewrite T in NA. exists name.
  assert (OP : opens b logs t q) by (split; [exact K|]; split; [exact HV|]; now exists (os_order o), n, (os_hash o), (ch_full c)).
  destruct (C44_part (ch_filter c) segs b logs t q n (os_render o) OP AS CN L PD) as (out & rows & totals & W & R).
  unfold reg_dump in O. rewrite RC, B, T in O. change (chosen_filter c) with (path_filter (ch_filter c)) in O. cbv zeta in O. rewrite W in O. exists out, rows, totals. auto.
Qed.
Print Assumptions C67_common.
Theorem C67_tsv : forall o n c f outs final p b logs q t segs printable key_logs value_logs, plain_folder f -> dump_folder o n c f outs = Finished final ->
  ch_type c = TsvOut -> ch_recover c = false -> ch_recovered_only c = false -> os_render o = as_shown printable key_logs value_logs ->
  In (p, b) f -> hive_file p b -> used_logs (ch_skip_logs c) f p logs ->
  known_file_type b -> build (os_order o) n (os_hash o) false (ch_full c) b logs = Ok q -> hive (ps_buffer q) t -> (2 * List.length (positions t) < n)%nat ->
  asked (ch_filter c) segs -> (ch_filter c <> None -> clean_names t) ->
  exists name out rows, named_after p (text "tsv") name /\ output final name = Some out
  /\ reads_rows 9 out (tsv_columns :: rows) (log_tail (os_log o q))
  /\ tree_tsv_rows (ps_buffer q) 1 (part_items segs t) rows.
Proof.
  intros o n c f outs final p b logs q t segs pr kl vl PF E T RC RO RD I HF U K B HV L AS CN. destruct (C67_outputs o n c f outs final PF E) as (A & _).
  destruct (A p b logs I HF U) as (name & NA & O). rewrite T in NA. exists name.
  assert (OP : opens b logs t q) by (split; [exact K|]; split; [exact HV|]; now exists (os_order o), n, (os_hash o), (ch_full c)).
  destruct (C56_part (ch_filter c) segs b logs t q n pr kl vl (os_log o q) OP AS CN L) as (out & rows & W & R).
  unfold reg_dump in O. rewrite RC, B, T, RO, RD in O. change (chosen_filter c) with (path_filter (ch_filter c)) in O. cbv zeta in O. rewrite W in O. exists out, rows. auto.
Qed.
Print Assumptions C67_tsv.
(** The spreadsheet, when the library accepts all of it. *)
Theorem C67_xlsx : forall o n c f outs final p b logs q t segs, plain_folder f -> dump_folder o n c f outs = Finished final ->
  ch_type c = XlsxOut -> ch_recover c = false -> ch_recovered_only c = false ->
  in_sheet (os_accepts o) -> (forall k, is_text (rd_key_logs (os_render o) k)) -> (forall v, is_text (rd_value_logs (os_render o) v)) ->
  Forall (fun m => is_text (mg_text m)) (or_default (os_log o q)) ->
  (forall x v, In (x, Some v) (part_items segs t) -> bytes_ok (value_data (v_type v mod 4096) (v_data v))) ->
  In (p, b) f -> hive_file p b -> used_logs (ch_skip_logs c) f p logs ->
  known_file_type b -> build (os_order o) n (os_hash o) false (ch_full c) b logs = Ok q -> hive (ps_buffer q) t -> (2 * List.length (positions t) < n)%nat ->
  asked (ch_filter c) segs -> (ch_filter c <> None -> clean_names t) ->
  exists name, named_after p (text "xlsx") name
  /\ (output final name = Some (os_left o) \/ exists w, output final name = Some (os_pack o w)
      /\ tree_items_sheet (ps_buffer q) (bk_writes w) (part_items segs t) /\ logs_sheet (bk_writes w) (or_default (os_log o q))).
Proof.
  intros o n c f outs final p b logs q t segs PF E T RC RO IN KT VT LT BT I HF U K B HV L AS CN. destruct (C67_outputs o n c f outs final PF E) as (A & _).
  destruct (A p b logs I HF U) as (name & NA & O). rewrite T in NA. exists name. split; [exact NA|].
  assert (OP : opens b logs t q) by (split; [exact K|]; split; [exact HV|]; now exists (os_order o), n, (os_hash o), (ch_full c)).
  unfold reg_dump in O. rewrite RC, B, T, RO in O. change (chosen_filter c) with (path_filter (ch_filter c)) in O. cbv zeta in O.
  destruct (write_xlsx (os_accepts o) (os_printable o) (rd_key_logs (os_render o)) (rd_value_logs (os_render o)) false n q (path_filter (ch_filter c)) (os_log o q)) as [w| | |] eqn:W; cbn [written_or] in O;
    [|now left|contradiction..].
  right. exists w. split; [exact O|]. exact (C57_part (ch_filter c) segs b logs t q n _ _ _ _ _ w OP AS CN L IN KT VT LT BT W).
Qed.
Print Assumptions C67_xlsx.

(** A folder with two hives, a log that is not one, and a file that is named as a
    hive but is none. *)
Definition h_folder : folder :=
  [([text "SYSTEM"], demo_hive); ([text "SYSTEM.LOG1"], [1; 2; 3]); ([text "Users"; text "ann"; text "NTUSER.DAT"], [5]); ([text "Users"; text "bob"; text "ntuser.dat"], other_hive)].
Definition h_out : outside := mkOutside keep no_hash e_show j_logs (fun _ => None) (fun _ _ => true) (fun _ => true) (fun _ => []) [].
Definition h_choices (t : output_type) : choices := mkChoices None false false false false t.
Lemma h_hives p b : In (p, b) h_folder -> hive_file p b ->
  (p, b) = ([text "SYSTEM"], demo_hive) \/ (p, b) = ([text "Users"; text "ann"; text "NTUSER.DAT"], [5]) \/ (p, b) = ([text "Users"; text "bob"; text "ntuser.dat"], other_hive).
Proof.
  intros I H. unfold h_folder in I. cbn [In] in I. destruct I as [I|[I|[I|[I|I]]]]; try (rewrite <- I; tauto); [|contradiction].
  apply hive_iff in H. injection I as <- <-. vm_compute in H. discriminate H.
Qed.
Lemma h_logs p b logs : hive_file p b -> used_logs false h_folder p logs ->
  logs = match get_log_files false h_folder p with Some l => l | None => [] end.
Proof.
  intros H U. pose proof (used_or_none false h_folder p b H) as V. cbn [used_logs] in U, V. refine (logs_one h_folder p _ _ _ U V).
  unfold h_folder. cbn [map fst]. repeat (constructor; [vm_compute; intuition discriminate|]). constructor.
Qed.
Example C67_folder : plain_folder h_folder.
Proof.
  split; [|split].
  - unfold h_folder. cbn [map fst]. repeat (constructor; [vm_compute; intuition discriminate|]). constructor.
  - intros p b I H dirs name E. destruct (h_hives p b I H) as [X|[X|X]]; injection X as -> _;
      apply (f_equal (@removelast _)) in E; rewrite removelast_last in E; subst dirs; vm_compute; repeat constructor; intuition discriminate.
  - intros dirs n1 n2 b1 b2 I1 I2 H1 H2 S0. apply h_hives in I1; [|exact H1]. apply h_hives in I2; [|exact H2].
    destruct I1 as [X|[X|X]], I2 as [Y|[Y|Y]]; apply (f_equal fst) in X, Y; cbn [fst] in X, Y;
      pose proof (f_equal (@removelast _) X) as D1; pose proof (f_equal (@removelast _) Y) as D2; rewrite removelast_last in D1, D2;
      pose proof (f_equal (fun l => List.last l []) X) as L1; pose proof (f_equal (fun l => List.last l []) Y) as L2; cbn beta in L1, L2; rewrite last_snoc in L1, L2;
      rewrite L1, L2; try reflexivity; rewrite D1 in D2; vm_compute in D2; discriminate D2.
Qed.
Example C67_harmless : harmless (h_choices TsvOut) h_folder /\ no_cycles h_out (h_choices TsvOut) h_folder.
Proof.
  split; [split|].
  - intros p b I. apply bytes_check. refine (proj1 (forallb_forall (fun e : path * list N => forallb (fun x => x <? 256) (snd e)) h_folder) _ (p, b) I). vm_compute. reflexivity.
  - intros p b logs l pos I H U J. apply no_short_ok. pose proof (h_hives p b I H) as X. rewrite (h_logs p b logs H U) in J. clear U I.
    destruct X as [X|[X|X]]; injection X as -> ->; vm_compute in J; intuition (subst; reflexivity).
  - discriminate 1.
  - intros p b logs q I H U. pose proof (h_hives p b I H) as X. rewrite (h_logs p b logs H U). clear U I.
    assert (Y : forall b logs, match build keep 0 no_hash false false b logs with Ok q => no_pair (ps_buffer q) | Err => true | _ => false end = true ->
      build keep 0 no_hash false false b logs = Ok q -> no_list_cycle (ps_file q)).
    { intros b' logs' Y E. rewrite E in Y. apply no_pair_no_cycle. exact Y. }
    apply Y. destruct X as [X|[X|X]]; injection X as -> ->; vm_compute; reflexivity.
Qed.
(** A folder for recovery and the spreadsheet: the header of the hive is clean. *)
Definition h_clean : folder := [([text "SYSTEM"], small_hive 6 6); ([text "SYSTEM.LOG1"], [1; 2; 3])].
Definition h_recover : choices := mkChoices None true false false false XlsxOut.
Example C67_recovery_example : harmless h_recover h_clean /\ recovery_ends h_recover h_clean /\ no_cycles h_out h_recover h_clean.
Proof.
  assert (HH : forall p b, In (p, b) h_clean -> hive_file p b -> (p, b) = ([text "SYSTEM"], small_hive 6 6)).
  { intros p b I H. unfold h_clean in I. cbn [In] in I. destruct I as [I|[I|[]]]; [now symmetry|]. apply hive_iff in H. injection I as <- <-. vm_compute in H. discriminate H. }
  assert (HL : forall p b logs, In (p, b) h_clean -> hive_file p b -> used_logs false h_clean p logs -> logs = [[1; 2; 3]]).
  { intros p b logs I H U. pose proof (HH p b I H) as X. injection X as -> ->. pose proof (used_or_none false h_clean _ _ H) as V. cbn [used_logs] in U, V. rewrite (logs_one h_clean _ _ _ ltac:(repeat (constructor; [vm_compute; intuition discriminate|]); constructor) U V). vm_compute. reflexivity. }
  split; [split|split].
  - intros p b I. apply bytes_check. refine (proj1 (forallb_forall (fun e : path * list N => forallb (fun x => x <? 256) (snd e)) h_clean) _ (p, b) I). vm_compute. reflexivity.
  - intros p b logs l pos I H U J. apply no_short_ok. rewrite (HL p b logs I H U) in J. destruct J as [<-|[]]. reflexivity.
  - discriminate 1.
  - intros _ p b logs I H _. pose proof (HH p b I H) as X. injection X as -> ->. right. split; vm_compute; reflexivity.
  - intros p b logs q I H U. rewrite (HL p b logs I H U). pose proof (HH p b I H) as X. injection X as -> ->. cbn [h_out h_recover os_order os_hash ch_recover ch_full]. intros E.
    assert (Y : match build keep 0 no_hash true false (small_hive 6 6) [[1; 2; 3]] with Ok q => no_pair (ps_buffer q) | Err => true | _ => false end = true) by (vm_compute; reflexivity).
    rewrite E in Y. now apply no_pair_no_cycle.
Qed.
Example C67_case : exists final, dump_folder h_out 20 (h_choices TsvOut) h_folder [] = Finished final
  /\ map fst final = [text "SYSTEM.tsv"; text "Users_bob_ntuser.tsv"].
Proof.
  assert (Y : map fst match dump_folder h_out 20 (h_choices TsvOut) h_folder [] with Finished outs => outs | _ => [] end = [text "SYSTEM.tsv"; text "Users_bob_ntuser.tsv"]) by (vm_compute; reflexivity).
  destruct (dump_folder h_out 20 (h_choices TsvOut) h_folder []) as [f|f|f]; [now exists f|discriminate Y..].
Qed.
(** What the theorems about one hive ask for: the hive, its logs, its tree. *)
Example C67_hive_example : exists q, In ([text "Users"; text "bob"; text "ntuser.dat"], other_hive) h_folder
  /\ hive_file [text "Users"; text "bob"; text "ntuser.dat"] other_hive /\ used_logs false h_folder [text "Users"; text "bob"; text "ntuser.dat"] []
  /\ known_file_type other_hive /\ build keep 20 no_hash false false other_hive [] = Ok q /\ hive (ps_buffer q) other_tree
  /\ (2 * List.length (positions other_tree) < 20)%nat /\ (forall z, plain (rd_date e_show z)).
Proof.
  destruct other_header as (K & R & _). destruct (hive_opens keep 20 no_hash false other_hive other_tree K R other_is_hive) as (q & E & B & _).
  exists q. split; [do 3 right; now left|]. assert (H : hive_file [text "Users"; text "bob"; text "ntuser.dat"] other_hive) by (apply hive_iff; vm_compute; reflexivity).
  split; [exact H|]. split; [exact (used_or_none false h_folder _ _ H)|]. split; [exact K|]. split; [exact E|]. split; [rewrite B; exact other_is_hive|].
  split; [vm_compute; lia|]. intros z. vm_compute. repeat (constructor; [intuition discriminate|]). constructor.
Qed.

(** The same folder with a path: the hive that has the key is cut down to it, in the
    other there is nothing at the path. *)
Definition h_path : choices := mkChoices (Some (text "alpha\")) false false false false JsonlOut.
Example C67_path_example : asked (ch_filter h_path) [text "alpha"] /\ List.length (part [text "alpha"] demo_tree) = 2%nat /\ part [text "alpha"] other_tree = []
  /\ clean_names demo_tree /\ clean_names other_tree /\ exists final, dump_folder h_out 20 h_path h_folder [] = Finished final
  /\ map (fun x => (fst x, List.length (List.filter (N.eqb 10) (snd x)))) final = [(text "SYSTEM.jsonl", 2%nat); (text "Users_bob_ntuser.jsonl", 0%nat)].
Proof.
  split; [|split; [reflexivity|split; [reflexivity|]]].
  - split; [discriminate|]. split; [|now exists 1%nat]. split; [repeat constructor|]. split; [constructor; [vm_compute; intuition discriminate|constructor]|]. split; vm_compute; discriminate.
  - destruct demo_header as (_ & _ & _ & C1). destruct other_header as (_ & _ & _ & C2). split; [exact C1|]. split; [exact C2|].
    assert (Y : map (fun x => (fst x, List.length (List.filter (N.eqb 10) (snd x)))) match dump_folder h_out 20 h_path h_folder [] with Finished outs => outs | _ => [] end
      = [(text "SYSTEM.jsonl", 2%nat); (text "Users_bob_ntuser.jsonl", 0%nat)]) by (vm_compute; reflexivity).
    destruct (dump_folder h_out 20 h_path h_folder []) as [f|f|f]; [now exists f|discriminate Y..].
Qed.

(** Of the three conditions none can be left out. A file of an unknown type, among
    hives, ends a run for the common format: what comes after it has no output. *)
Definition before_demo (b : list N) (logs : folder) : folder := ([text "SAM"], b) :: logs ++ [([text "SYSTEM"], demo_hive)].
Theorem C67_odd_type_refuted : dump_folder h_out 20 (h_choices CommonOut) (before_demo odd_file []) [] = Stopped [].
Proof. vm_compute. reflexivity. Qed.
Print Assumptions C67_odd_type_refuted.
(** So does a log with a short entry, for every format. *)
Theorem C67_short_entry_refuted : forall t,
  dump_folder h_out 20 (h_choices t) (before_demo demo_hive [([text "SAM.LOG1"], firstn 512 (header 5 5 32 4096) ++ HVLE ++ enc 4 39 ++ repeat 0 32)]) [] = Stopped [].
Proof. intros [| | |]; vm_compute; reflexivity. Qed.
Print Assumptions C67_short_entry_refuted.
(** At a hive with an index root inside itself the run stays. *)
Theorem C67_cycle_refuted : forall n, dump_folder h_out n (h_choices JsonlOut) (before_demo looping_hive []) [] = Hanging [].
Proof.
  intros n. assert (X : exists p, build keep 0 no_hash false false looping_hive [] = Ok p /\ forall n post, iterate n p None false true post = OutOfFuel).
  { refine (checked _ (fun p => match visit (ps_file p) (cx_set_stack [] (from_parser p true None false)) (match ps_root p with Some r => r | None => default_key end)
      with OutOfFuel => true | _ => false end) _ _ _); [|vm_compute; reflexivity].
    intros p H. apply first_stuck. destruct (visit _ _ _); [discriminate H..|reflexivity]. }
  destruct X as (p & E & H). unfold dump_folder, before_demo. cbn [app dump_files fst snd].
  replace (is_reg_file [text "SAM"] && file_has_size looping_hive) with true by (vm_compute; reflexivity). cbv iota. unfold process_file, reg_dump.
  match goal with |- context [get_log_files ?s ?f ?q] => replace (match get_log_files s f q with Some l => l | None => [] end) with (@nil (list N)) by (vm_compute; reflexivity) end.
  cbn [h_out h_choices os_order os_hash ch_recover ch_full].
  replace (build keep n no_hash false false looping_hive []) with (Ok p) by (rewrite <- E; apply build_fuel; [apply bytes_check; vm_compute; reflexivity|constructor]).
  cbn [chosen_filter ch_filter ch_type os_items]. unfold write_json. rewrite H. reflexivity.
Qed.
Print Assumptions C67_cycle_refuted.

(** ** C68 *)
(** Without recovery, opening a file ends, for every file and every list of logs:
    the result is the same with any fuel, and it is not that the fuel ran out. *)
Theorem C68_opening_ends : forall order hash full buffer files, bytes_ok buffer -> Forall bytes_ok files ->
  exists r, r <> OutOfFuel /\ forall n, build order n hash false full buffer files = r.
Proof.
  intros order hash full buffer files B F. exists (build order 0 hash false full buffer files). split; [exact (proj2 (build_fuel order 0 0 hash full buffer files B F))|].
  intros n. exact (proj1 (build_fuel order n 0 hash full buffer files B F)).
Qed.
Print Assumptions C68_opening_ends.
(** With recovery too, when there are no logs or the header says that none are needed. *)
Theorem C68_recovery_ends : forall order hash recover full buffer files, bytes_ok buffer -> no_replay buffer files ->
  exists r, r <> OutOfFuel /\ forall n, build order n hash recover full buffer files = r.
Proof.
  intros order hash recover full buffer files B F. exists (build order 0 hash recover full buffer files). split; [exact (proj2 (unreplayed_fuel order 0 0 hash recover full buffer files B F))|].
  intros n. exact (proj1 (unreplayed_fuel order n 0 hash recover full buffer files B F)).
Qed.
Print Assumptions C68_recovery_ends.
Example C68_recovery_example : bytes_ok (small_hive 6 6) /\ no_replay (small_hive 6 6) [[1; 2; 3]] /\ no_replay (small_hive 6 5) [] /\ ~ no_replay (small_hive 6 5) [[1; 2; 3]].
Proof.
  split; [apply bytes_check; vm_compute; reflexivity|]. split; [right; split; vm_compute; reflexivity|]. split; [now left|].
  intros [H|(_ & H)]; [discriminate H|vm_compute in H; discriminate H].
Qed.
(** With logs whose entries are no shorter than their headers it ends in a parser
    or in an error. *)
Theorem C68_opened_or_not : forall order hash full buffer files, bytes_ok buffer -> Forall bytes_ok files -> (forall f pos, In f files -> ~ short_entry f pos) ->
  (exists p, forall n, build order n hash false full buffer files = Ok p) \/ (forall n, build order n hash false full buffer files = Err).
Proof.
  intros order hash full buffer files B F S. destruct (C68_opening_ends order hash full buffer files B F) as (r & NF & H).
  pose proof (C64_opening order 0 hash false full buffer files S) as A. rewrite H in A.
  destruct r as [p| | |]; [left; now exists p|now right|now elim A|now elim NF].
Qed.
Print Assumptions C68_opened_or_not.
Example C68_example : bytes_ok odd_file /\ Forall bytes_ok [[1; 2; 3]] /\ (forall f pos, In f [[1; 2; 3]] -> ~ short_entry f pos)
  /\ (exists p, build keep 0 no_hash false false odd_file [[1; 2; 3]] = Ok p) /\ build keep 0 no_hash false false [5] [[1; 2; 3]] = Err.
Proof.
  split; [apply bytes_check; vm_compute; reflexivity|]. split; [constructor; [now apply bytes_check|constructor]|].
  split; [intros f pos [<-|[]]; now apply no_short_ok|]. split; [|vm_compute; reflexivity].
  assert (X : match build keep 0 no_hash false false odd_file [[1; 2; 3]] with Ok _ => true | _ => false end = true) by (vm_compute; reflexivity).
  destruct (build keep 0 no_hash false false odd_file [[1; 2; 3]]) as [p| | |]; try discriminate X. now exists p.
Qed.
