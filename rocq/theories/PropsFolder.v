(** C58, C59: runs over folders, and lists of paths. *)
From Coq Require Import String.
From Verif Require Import Base Util UtilSpec UtilText BaseFacts Types Log Folder FolderSpec FolderFacts.
Open Scope string_scope.
Open Scope N_scope.
Open Scope list_scope.

Definition case_folder : folder :=
  [([text "SYSTEM"], [1]); ([text "SYSTEM.LOG2"], [2]); ([text "SYSTEM.LOG1"], [3]); ([text "notes.txt"], [4]); ([text "Users"; text "ann"; text "NTUSER.DAT"], [5]);
   ([text "Users"; text "ann"; text "ntuser.dat.LOG1"], [6]); ([text "Users"; text "bob"; text "ntuser.dat"], [7]); ([text "Users"; text "bob"; text "sam"], []);
   ([text "Users"; text "bob"; text "UsrClass.dat"], [8])].
Definition case_dump (b : list N) (logs : list (list N)) : option (list N) := Some (b ++ List.concat logs).

(** ** C58 *)
(** Of the files of a folder, exactly the hives give output. Each gives it under its
    own name, made from its path, from its bytes and the logs beside it. One that
    cannot be read leaves what is there alone, and stops nothing. *)
Theorem C58_outputs : forall dump skip_logs extension f outs, plain_folder f ->
  (forall p b logs, In (p, b) f -> hive_file p b -> used_logs skip_logs f p logs -> exists o, named_after p extension o
     /\ output (process_folder dump skip_logs extension f outs) o = match dump b logs with Some out => Some out | None => output outs o end)
  /\ (forall o, output (process_folder dump skip_logs extension f outs) o <> output outs o -> exists p b, In (p, b) f /\ hive_file p b /\ named_after p extension o).
Proof. exact folder_run. Qed.
Print Assumptions C58_outputs.
(** No two of them share a name, so none is lost. *)
Theorem C58_distinct : forall f extension p1 b1 p2 b2 out, plain_folder f -> In (p1, b1) f -> In (p2, b2) f -> hive_file p1 b1 -> hive_file p2 b2 ->
  named_after p1 extension out -> named_after p2 extension out -> p1 = p2.
Proof. exact names_differ. Qed.
Print Assumptions C58_distinct.
(** The logs of a hive are determined, and there is always an answer. *)
Theorem C58_logs : forall f p b, NoDup (map fst f) -> hive_file p b -> exists logs, logs_beside f p logs /\ (forall other, logs_beside f p other -> other = logs)
  /\ get_log_files false f p = Some logs /\ get_log_files true f p = None.
Proof.
  intros f p b ND (_ & d & n & _ & -> & _). destruct (logs_given f d n) as (logs & E & L). exists logs. split; [exact L|].
  split; [intros other O; exact (logs_one f _ _ _ ND O L)|]. now split.
Qed.
Print Assumptions C58_logs.
(** Two folders are compared hive by hive, those at the same place in both. *)
Theorem C58_compare : forall compare skip_logs extension base comparison outs, plain_folder base -> NoDup (map fst comparison) ->
  (forall p b logs b' logs', In (p, b) base -> hive_file p b -> In (p, b') comparison -> b' <> [] -> used_logs skip_logs base p logs -> used_logs skip_logs comparison p logs' ->
     exists o, named_after p extension o /\ output (process_folders compare skip_logs extension base comparison outs) o = Some (compare (b, logs) (b', logs')))
  /\ (forall o, output (process_folders compare skip_logs extension base comparison outs) o <> output outs o ->
      exists p b b', In (p, b) base /\ hive_file p b /\ In (p, b') comparison /\ b' <> [] /\ named_after p extension o).
Proof. exact folders_run. Qed.
Print Assumptions C58_compare.

Lemma case_hives p b : In (p, b) case_folder -> hive_file p b ->
  In (p, b) [([text "SYSTEM"], [1]); ([text "Users"; text "ann"; text "NTUSER.DAT"], [5]); ([text "Users"; text "bob"; text "ntuser.dat"], [7]); ([text "Users"; text "bob"; text "UsrClass.dat"], [8])].
Proof.
  intros I H. apply hive_iff in H. unfold case_folder in I. cbn [In] in I.
  repeat (destruct I as [I|I]; [injection I as <- <-; first [now (vm_compute in H; discriminate H)|cbn [In]; tauto]|]). contradiction.
Qed.
Example C58_plain : plain_folder case_folder.
Proof.
  split; [|split].
  - unfold case_folder. cbn [map fst]. repeat (constructor; [vm_compute; intuition discriminate|]). constructor.
  - intros p b I H. apply case_hives in I; [|exact H]. intros dirs name E.
    cbn [In] in I. repeat (destruct I as [I|I]; [injection I as <- _|]); [| | | |contradiction].
    all: apply (f_equal (@removelast _)) in E; rewrite removelast_last in E; subst dirs; vm_compute; repeat constructor; intuition discriminate.
  - intros dirs n1 n2 b1 b2 I1 I2 H1 H2 S0. apply case_hives in I1; [|exact H1]. apply case_hives in I2; [|exact H2]. apply to_lower_same in S0. cbn [In] in I1, I2.
    assert (X : forall e, In e [([text "SYSTEM"], [1]); ([text "Users"; text "ann"; text "NTUSER.DAT"], [5]); ([text "Users"; text "bob"; text "ntuser.dat"], [7]); ([text "Users"; text "bob"; text "UsrClass.dat"], [8])] ->
      forall (e' : path * list N), In e' [([text "SYSTEM"], [1]); ([text "Users"; text "ann"; text "NTUSER.DAT"], [5]); ([text "Users"; text "bob"; text "ntuser.dat"], [7]); ([text "Users"; text "bob"; text "UsrClass.dat"], [8])] ->
      removelast (fst e) = removelast (fst e') -> to_lower (List.last (fst e) []) = to_lower (List.last (fst e') []) -> List.last (fst e) [] = List.last (fst e') []).
    { intros e I e' I'. cbn [In] in I, I'. repeat (destruct I as [<-|I]; [repeat (destruct I' as [<-|I']; [vm_compute; congruence|]); contradiction|]). contradiction. }
    specialize (X _ I1 _ I2). cbn [fst] in X. rewrite !removelast_last, !last_snoc in X. exact (X eq_refl S0).
Qed.
Example C58_case : process_folder case_dump false (text "tsv") case_folder []
  = [(text "SYSTEM.tsv", [1; 3; 2]); (text "Users_ann_NTUSER.tsv", [5; 6]); (text "Users_bob_ntuser.tsv", [7]); (text "Users_bob_UsrClass.tsv", [8])].
Proof. vm_compute. reflexivity. Qed.
Example C58_case_skip : process_folder case_dump true (text "tsv") case_folder []
  = [(text "SYSTEM.tsv", [1]); (text "Users_ann_NTUSER.tsv", [5]); (text "Users_bob_ntuser.tsv", [7]); (text "Users_bob_UsrClass.tsv", [8])].
Proof. vm_compute. reflexivity. Qed.
Example C58_case_compare :
  process_folders (fun a b => fst a ++ List.concat (snd a) ++ [0] ++ fst b ++ List.concat (snd b)) false (text "txt") case_folder
    [([text "SYSTEM"], [10]); ([text "SYSTEM.LOG1"], [11]); ([text "Users"; text "bob"; text "ntuser.dat"], []); ([text "Users"; text "bob"; text "SAM"], [12])] []
  = [(text "SYSTEM.txt", [1; 3; 2; 0; 10; 11])].
Proof. vm_compute. reflexivity. Qed.

(** With an underscore in the name of a folder the claim is false: of these two hives
    one overwrites the output of the other. *)
Theorem C58_underscore_refuted : exists f p b, NoDup (map fst f) /\ In (p, b) f /\ hive_file p b
  /\ (forall o, output (process_folder (fun b _ => Some b) false (text "tsv") f []) o <> Some b).
Proof.
  exists [([text "a_b"; text "SYSTEM"], [1]); ([text "a"; text "b"; text "SYSTEM"], [2])], [text "a_b"; text "SYSTEM"], [1].
  split; [repeat constructor; vm_compute; intuition discriminate|]. split; [now left|]. split; [apply hive_iff; vm_compute; reflexivity|].
  intros o. assert (E : process_folder (fun b _ => Some b) false (text "tsv") [([text "a_b"; text "SYSTEM"], [1]); ([text "a"; text "b"; text "SYSTEM"], [2])] [] = [(text "a_b_SYSTEM.tsv", [2])]) by (vm_compute; reflexivity).
  rewrite E. unfold output. cbn [aget]. destruct (beq o _); discriminate.
Qed.
Print Assumptions C58_underscore_refuted.
(** So it is with a dot: what follows the last one is taken for the extension. *)
Theorem C58_dot_refuted : exists f p b, NoDup (map fst f) /\ In (p, b) f /\ hive_file p b
  /\ (forall o, output (process_folder (fun b _ => Some b) false (text "tsv") f []) o <> Some b).
Proof.
  exists [([text "host.net"; text "SYSTEM"], [1]); ([text "host.net"; text "SOFTWARE"], [2])], [text "host.net"; text "SYSTEM"], [1].
  split; [repeat constructor; vm_compute; intuition discriminate|]. split; [now left|]. split; [apply hive_iff; vm_compute; reflexivity|].
  intros o. assert (E : process_folder (fun b _ => Some b) false (text "tsv") [([text "host.net"; text "SYSTEM"], [1]); ([text "host.net"; text "SOFTWARE"], [2])] [] = [(text "host.tsv", [2])]) by (vm_compute; reflexivity).
  rewrite E. unfold output. cbn [aget]. destruct (beq o _); discriminate.
Qed.
Print Assumptions C58_dot_refuted.
(** Hives are found by their names in any case; their logs are not. *)
Theorem C58_log_case_refuted : exists f dirs name log b l, NoDup (map fst f) /\ In (dirs ++ [name], b) f /\ hive_file (dirs ++ [name]) b
  /\ In (dirs ++ [log], l) f /\ same_name log (name ++ text ".LOG1") /\ get_log_files false f (dirs ++ [name]) = Some [].
Proof.
  exists [([text "SYSTEM"], [1]); ([text "SYSTEM.log1"], [2])], [], (text "SYSTEM"), (text "SYSTEM.log1"), [1], [2].
  split; [repeat constructor; vm_compute; intuition discriminate|]. split; [now left|]. split; [apply hive_iff; vm_compute; reflexivity|].
  split; [right; now left|]. split; [apply to_lower_same; vm_compute; reflexivity|]. vm_compute. reflexivity.
Qed.
Print Assumptions C58_log_case_refuted.

(** ** C59 *)
(** A list of paths, one of a hive and any number of logs, in any order, with blanks
    and quotes around them, is taken apart into what was put in. *)
Theorem C59_paths : forall before primary after shown, Forall is_log before -> ~ is_log primary -> Forall is_log after ->
  Forall2 written_path (before ++ [primary] ++ after) shown ->
  parse_paths (joined shown) = (primary, some_logs (before ++ after)).
Proof. exact parse_back. Qed.
Print Assumptions C59_paths.
(** Without a hive, the name of the hive is empty. *)
Theorem C59_only_logs : forall names shown, names <> [] -> Forall is_log names -> Forall2 written_path names shown -> parse_paths (joined shown) = ([], Some names).
Proof. exact parse_logs. Qed.
Print Assumptions C59_only_logs.
Example C59_case : parse_paths (text "system.LOG2, 'a b/system' ,system.log1") = (text "a b/system", Some [text "system.LOG2"; text "system.log1"]).
Proof. vm_compute. reflexivity. Qed.
Example C59_written : Forall2 written_path [text "system.LOG2"; text "a b/system"; text "system.log1"] [text "system.LOG2"; text " 'a b/system' "; text "system.log1"]
  /\ is_log (text "system.LOG2") /\ ~ is_log (text "a b/system").
Proof.
  assert (P : forall a q name r b, forallb is_white a = true -> forallb is_white b = true -> Forall (eq 39) q -> Forall (eq 39) r ->
    forallb (fun c => negb (c =? 44)) name = true -> match hd_error name with Some c => negb (is_white c) && negb (c =? 39) | None => true end = true ->
    match hd_error (rev name) with Some c => negb (is_white c) && negb (c =? 39) | None => true end = true -> written_path name (a ++ q ++ name ++ r ++ b)).
  { intros a q name r b A B Q R N0 H L. rewrite forallb_forall in A, B, N0.
    assert (W : forall o, match o with Some c => negb (is_white c) && negb (c =? 39) | None => true end = true -> forall c, o = Some c -> ~ white_space c /\ c <> 39).
    { intros o T c ->. apply andb_true_iff in T as (T1 & T2). split; [intros X; apply is_white_spec in X; now rewrite X in T1|intros ->; discriminate T2]. }
    split; [intros I; apply N0 in I; discriminate I|]. split; [now apply W|]. split; [now apply W|]. exists a, b, q, r.
    split; [apply Forall_forall; intros c I; apply is_white_spec; now apply A|]. split; [apply Forall_forall; intros c I; apply is_white_spec; now apply B|]. auto. }
  split; [|split].
  - constructor; [|constructor; [|constructor; [|constructor]]].
    + apply (P [] [] (text "system.LOG2") [] []); repeat constructor.
    + apply (P [32] [39] (text "a b/system") [39] [32]); repeat constructor.
    + apply (P [] [] (text "system.log1") [] []); repeat constructor.
  - apply log_iff. vm_compute. reflexivity.
  - intros X. apply log_iff in X. vm_compute in X. discriminate X.
Qed.
(** A path with a comma in it cannot be given. *)
Theorem C59_comma_refuted : exists primary, ~ is_log primary /\ parse_paths primary <> (primary, None).
Proof. exists (text "a,b/SYSTEM"). split; [intros X; apply log_iff in X; vm_compute in X; discriminate X|vm_compute; discriminate]. Qed.
Print Assumptions C59_comma_refuted.
