(** Lemmas about the runs of the tools on a disk. *)
From Coq Require Import String.
From Verif Require Import Base BaseFacts StoreFacts Util UtilSpec UtilText Types Value Node Recover Parser TxLog Log Export Compare Folder FolderSpec FolderFacts
  Dump DumpFacts CompareRun CompareRunSpec CompareRunFacts Disk DiskSpec.
Open Scope string_scope.
Open Scope N_scope.
Open Scope list_scope.

Lemma read_write p q b d : read_file p (write_file q b d) = if path_eqb p q then Some b else read_file p d.
Proof. exact (aget_aset path_eqb path_eqb_eq p q b d). Qed.
Lemma read_write_same p b d : read_file p (write_file p b d) = Some b.
Proof. now rewrite read_write, (proj2 (path_eqb_eq p p) eq_refl). Qed.
Lemma read_write_other p q b d : p <> q -> read_file p (write_file q b d) = read_file p d.
Proof. intros H. rewrite read_write. destruct (path_eqb p q) eqn:E; [|reflexivity]. now apply path_eqb_eq in E. Qed.

(** ** Names of outputs *)
Definition out_extension (e : list N) : Prop := In e (map text ["xlsx"; "tsv"; "txt"; "jsonl"; "diff"]).
Definition quiet (out : path) (e : list N) (q : path) : Prop := forall stem, q <> out ++ [stem ++ [46] ++ e].
Lemma rev_tail (s e : list N) : (2 <= List.length e)%nat -> firstn 2 (rev (s ++ e)) = firstn 2 (rev e).
Proof.
  intros H. rewrite rev_app_distr, firstn_app, rev_length. replace (2 - List.length e)%nat with 0%nat by lia. cbn [firstn]. apply app_nil_r.
Qed.
Lemma lower_out_ext e : out_extension e -> to_lower e = e /\ (2 <= List.length e)%nat /\ In (firstn 2 (rev e)) (map text ["xs"; "vs"; "tx"; "ln"; "ff"]).
Proof.
  unfold out_extension. cbn [map In]. intros H. repeat destruct H as [<-|H]; [..|contradiction]; (split; [reflexivity|]); (split; [cbn; lia|]); vm_compute; tauto.
Qed.
Lemma to_lower_app a b : to_lower (a ++ b) = to_lower a ++ to_lower b.
Proof. apply map_app. Qed.
Lemma evidence_quiet out e q : out_extension e -> evidence q -> quiet out e q.
Proof.
  intros OE (dirs & name & -> & H) stem E. apply snoc_inj in E as (_ & E). destruct (lower_out_ext e OE) as (L & Z & I).
  assert (T : firstn 2 (rev (to_lower name)) = firstn 2 (rev e)).
  { rewrite E, to_lower_app. change (to_lower ([46] ++ e)) with ([46] ++ to_lower e). rewrite L, app_assoc. now apply rev_tail. }
  destruct H as [(n & J & S0)|(st & x & -> & [S0|S0])].
  - apply to_lower_same in S0. rewrite S0 in T. rewrite <- T in I. revert J I. unfold hive_names. cbn [map In].
    intros J I. repeat destruct J as [<-|J]; [..|contradiction]; vm_compute in I; repeat destruct I as [I|I]; try discriminate I; contradiction.
  - apply to_lower_same in S0. rewrite to_lower_app, S0, rev_tail in T by (cbn; lia). rewrite <- T in I. vm_compute in I. repeat destruct I as [I|I]; try discriminate I; contradiction.
  - apply to_lower_same in S0. rewrite to_lower_app, S0, rev_tail in T by (cbn; lia). rewrite <- T in I. vm_compute in I. repeat destruct I as [I|I]; try discriminate I; contradiction.
Qed.
Lemma dump_ext t : out_extension (extension_of t).
Proof. destruct t; vm_compute; tauto. Qed.
Lemma compare_ext c : out_extension (compare_extension c).
Proof. unfold compare_extension. destruct (cc_diff c); vm_compute; tauto. Qed.
Lemma outpath_named p e : exists s, get_outpath p e = s ++ [46] ++ e.
Proof. unfold get_outpath, set_extension. eexists. reflexivity. Qed.
Lemma reg_evidence base w : is_reg_file w = true -> evidence (base ++ w).
Proof. intros H. apply reg_name in H as (dirs & name & n & -> & I & S0). exists (base ++ dirs), name. split; [apply app_assoc|]. left. now exists n. Qed.
Lemma log_evidence dirs name e : e = "LOG1" \/ e = "LOG2" -> evidence (dirs ++ [get_log_name name (text e)]).
Proof.
  intros H. exists dirs, (get_log_name name (text e)). split; [reflexivity|]. right. unfold get_log_name. eexists _, (text "." ++ text e). split; [reflexivity|].
  destruct H as [-> | ->]; [left|right]; apply to_lower_same; vm_compute; reflexivity.
Qed.

(** ** What is kept, however the run ends *)
Lemma keep_trans out e d1 d2 d3 : same_but out e d1 d2 -> same_but out e d2 d3 -> same_but out e d1 d3.
Proof. intros A B q Q. now rewrite (B q Q), (A q Q). Qed.
Lemma keep_write out e p b d : same_but out e d (write_file (out ++ [get_outpath p e]) b d).
Proof. intros q Q. destruct (outpath_named p e) as (s & ->). apply read_write_other. apply Q. Qed.
Lemma keep_refl out e d : same_but out e d d. Proof. now intros q Q. Qed.
Lemma dump_keeps o n c base out ws : forall d, same_but out (extension_of (ch_type c)) d (left_on (dump_walk o n c base out ws d)).
Proof.
  induction ws as [|w ws IH]; intros d; cbn [dump_walk]; [apply keep_refl|]. destruct (is_reg_file w && _); [|apply IH]. cbv zeta.
  destruct (process_file _ _ _ _ _ _); try apply IH; try apply keep_refl; eapply keep_trans; [apply keep_write|apply IH|apply keep_write|apply IH].
Qed.
Lemma compare_keeps o n c base comparison out ws : forall d, same_but out (compare_extension c) d (left_on (compare_walk o n c base comparison out ws d)).
Proof.
  induction ws as [|w ws IH]; intros d; cbn [compare_walk]; [apply keep_refl|]. destruct (is_reg_file w && _ && _); [|apply IH]. cbv zeta.
  pose proof (keep_write out (compare_extension c) w [] d) as K. destruct (compare_at _ _ _ _ _ _ _ _) as [x| | |]; try exact K.
  - eapply keep_trans; [exact K|]. eapply keep_trans; [apply keep_write|apply IH].
  - eapply keep_trans; [exact K|apply IH].
Qed.
Lemma same_evidence out e d d' q : out_extension e -> same_but out e d d' -> evidence q -> read_file q d' = read_file q d.
Proof. intros OE K E. apply K. exact (evidence_quiet out e q OE E). Qed.
Lemma dump_stops o n c base out ws : forall d, match dump_walk o n c base out ws d with
  | Through _ => True | Broken _ q | Stuck _ q => exists stem, q = out ++ [stem ++ [46] ++ extension_of (ch_type c)] end.
Proof.
  induction ws as [|w ws IH]; intros d; cbn [dump_walk]; [exact I|]. destruct (is_reg_file w && _); [|apply IH]. cbv zeta.
  destruct (outpath_named w (extension_of (ch_type c))) as (s & E). destruct (process_file _ _ _ _ _ _); try apply IH; exists s; now rewrite E.
Qed.
Lemma compare_stops o n c base comparison out ws : forall d, match compare_walk o n c base comparison out ws d with
  | Through _ => True | Broken _ q | Stuck _ q => exists stem, q = out ++ [stem ++ [46] ++ compare_extension c] end.
Proof.
  induction ws as [|w ws IH]; intros d; cbn [compare_walk]; [exact I|]. destruct (is_reg_file w && _ && _); [|apply IH]. cbv zeta.
  destruct (outpath_named w (compare_extension c)) as (s & E). destruct (compare_at _ _ _ _ _ _ _ _); try apply IH; exists s; now rewrite E.
Qed.

(** ** The files below a folder, in the order of the walk *)
Definition view (base : path) (d : folder) (ws : list path) : folder :=
  flat_map (fun w => match w with [] => [] | _ => match read_file (base ++ w) d with Some b => [(w, b)] | None => [] end end) ws.
Lemma view_in base d ws w b : In (w, b) (view base d ws) <-> In w ws /\ w <> [] /\ read_file (base ++ w) d = Some b.
Proof.
  unfold view. rewrite in_flat_map. split.
  - intros (v & I & H). destruct v as [|x v]; [contradiction|]. destruct (read_file (base ++ x :: v) d) eqn:R; [|contradiction].
    destruct H as [H|[]]. injection H as <- <-. split; [exact I|]. split; [discriminate|exact R].
  - intros (I & Z & R). exists w. split; [exact I|]. destruct w; [congruence|]. rewrite R. now left.
Qed.
Lemma view_keys base d ws : NoDup ws -> NoDup (map fst (view base d ws)).
Proof.
  intros ND. induction ND as [|w ws NI ND IH]; [constructor|]. cbn [view flat_map]. fold (view base d ws). rewrite map_app.
  destruct w as [|x w]; [exact IH|]. destruct (read_file (base ++ x :: w) d); [|exact IH]. cbn [map app fst]. constructor; [|exact IH].
  intros H. apply in_map_iff in H as ([v b] & E & H). cbn [fst] in E. subst v. apply view_in in H. tauto.
Qed.
Lemma view_lists base d f ws : lists base d f -> walked f ws -> lists base d (view base d ws).
Proof.
  intros (ND & L) (NW & W). split; [now apply view_keys|]. intros w b. rewrite view_in. split; [tauto|].
  intros H. split; [|exact H]. apply (W w b). now apply L.
Qed.
Lemma lists_read base d f w : lists base d f -> w <> [] -> read_file w f = read_file (base ++ w) d.
Proof.
  intros (ND & L) Z. destruct (read_file (base ++ w) d) as [b|] eqn:E.
  - apply read_one; [exact ND|]. apply L. now split.
  - destruct (read_file w f) as [b|] eqn:R; [|reflexivity]. apply (aget_in path_eqb path_eqb_eq) in R. apply L in R as (_ & R). congruence.
Qed.
Lemma lists_same base d f g w b : lists base d f -> lists base d g -> In (w, b) f -> In (w, b) g.
Proof. intros (_ & A) (_ & B) I. apply B. now apply A. Qed.
Lemma lists_keys base d f g w : lists base d f -> lists base d g -> In w (map fst f) -> In w (map fst g).
Proof. intros A B I. apply in_map_iff in I as ([v b] & <- & I). apply (in_map fst). exact (lists_same base d f g v b A B I). Qed.
Lemma lists_file base d f g p l : lists base d f -> lists base d g -> file_in f p l -> file_in g p l.
Proof. intros A B [b I|I]; constructor; [exact (lists_same base d f g p b A B I)|]. intros H. apply I. exact (lists_keys base d g f p B A H). Qed.
Lemma lists_logs base d f g s p l : lists base d f -> lists base d g -> used_logs s f p l -> used_logs s g p l.
Proof.
  intros A B. unfold used_logs. destruct s; [auto|]. intros (dirs & name & l1 & l2 & -> & X & Y & ->). exists dirs, name, l1, l2.
  split; [reflexivity|]. split; [exact (lists_file base d f g _ _ A B X)|]. split; [exact (lists_file base d f g _ _ A B Y)|reflexivity].
Qed.
Lemma lists_plain base d f g : lists base d f -> lists base d g -> plain_folder f -> plain_folder g.
Proof.
  intros A B (_ & P & Q). split; [exact (proj1 B)|]. pose proof (fun w b => lists_same base d g f w b B A) as S0. split.
  - intros p b I. apply P. now apply S0.
  - intros dirs n1 n2 b1 b2 I J. apply Q; now apply S0.
Qed.
Lemma snoc_app {A} (a : list A) w x : a ++ w ++ [x] = (a ++ w) ++ [x]. Proof. apply app_assoc. Qed.
Lemma removelast_of (base w : path) : w <> [] -> removelast (base ++ w) = base ++ removelast w.
Proof. intros Z. now apply removelast_app. Qed.
Lemma last_of (base w : path) : w <> [] -> List.last (base ++ w) [] = List.last w [].
Proof. intros Z. destruct (path_cases w) as [->|(d & x & ->)]; [congruence|]. now rewrite snoc_app, !last_snoc. Qed.
Definition log_place (p : path) (e : string) : path := removelast p ++ [get_log_name (List.last p []) (text e)].
Lemma log_place_of base w e : w <> [] -> log_place (base ++ w) e = base ++ log_place w e.
Proof. intros Z. unfold log_place. now rewrite removelast_of, last_of, <- app_assoc. Qed.
Lemma log_place_not p e : log_place p e <> []. Proof. unfold log_place. intros H. now apply app_eq_nil in H. Qed.
Lemma log_files_by s f g p q : (forall e, e = "LOG1" \/ e = "LOG2" -> read_file (log_place p e) f = read_file (log_place q e) g) ->
  get_log_files s f p = get_log_files s g q.
Proof.
  intros H. unfold get_log_files. destruct s; [reflexivity|]. unfold check_add_log. unfold log_place in H.
  rewrite (H "LOG1"), (H "LOG2") by tauto. reflexivity.
Qed.
Lemma log_paths_by s d d1 p : (forall e, e = "LOG1" \/ e = "LOG2" -> read_file (log_place p e) d1 = read_file (log_place p e) d) ->
  map (fun q => contents q d1) (log_paths s d p) = or_none (get_log_files s d p).
Proof.
  intros H. unfold log_paths, get_log_files. destruct s; [reflexivity|]. unfold check_add_log. pose proof (H "LOG1" (or_introl eq_refl)) as H1. pose proof (H "LOG2" (or_intror eq_refl)) as H2.
  unfold log_place in H1, H2. cbn [map List.filter]. destruct (read_file (removelast p ++ [get_log_name (List.last p []) (text "LOG1")]) d) eqn:E1;
  destruct (read_file (removelast p ++ [get_log_name (List.last p []) (text "LOG2")]) d) eqn:E2; cbn [map app or_none]; unfold contents; rewrite ?H1, ?H2; reflexivity.
Qed.

(** ** The run on the disk is the run over the files as they were *)
Definition ended_in (e : list N) (outs : amap (list N) (list N)) : Prop := forall name b, output outs name = Some b -> exists s, name = s ++ [46] ++ e.
Lemma laid_start out d : laid out d [] d.
Proof. split; reflexivity. Qed.
Lemma laid_write out d outs d' name b : laid out d outs d' -> laid out d (aset beq name b outs) (write_file (out ++ [name]) b d').
Proof.
  intros (A & B). split.
  - intros m. rewrite read_write. unfold output. rewrite (aget_aset beq beq_iff). destruct (beq m name) eqn:E.
    + apply beq_eq in E. subst m. now rewrite (proj2 (path_eqb_eq _ _) eq_refl).
    + destruct (path_eqb (out ++ [m]) (out ++ [name])) eqn:P; [|apply A]. apply path_eqb_eq, snoc_inj in P as (_ & ->). now rewrite beq_refl in E.
  - intros q Q. rewrite read_write_other by apply Q. now apply B.
Qed.
Lemma laid_twice out d outs d' name b x : laid out d outs d' -> laid out d (aset beq name b outs) (write_file (out ++ [name]) b (write_file (out ++ [name]) x d')).
Proof.
  intros (A & B). split.
  - intros m. pose proof (proj1 (laid_write out d outs d' name b (conj A B)) m) as W. rewrite <- W. rewrite !read_write. now destruct (path_eqb _ _).
  - intros q Q. rewrite !read_write_other by apply Q. now apply B.
Qed.
Lemma ended_write e outs p b : ended_in e outs -> ended_in e (aset beq (get_outpath p e) b outs).
Proof.
  intros H name x. unfold output. rewrite (aget_aset beq beq_iff). destruct (beq name (get_outpath p e)) eqn:E; [|apply H].
  intros _. apply beq_eq in E. subst name. apply outpath_named.
Qed.
Lemma laid_quiet out e d outs d' q : laid out d outs d' -> ended_in e outs -> quiet out e q -> read_file q d' = read_file q d.
Proof.
  intros (A & B) EN Q. destruct (path_cases q) as [->|(dirs & name & ->)].
  - apply B. intros name E. symmetry in E. now apply app_eq_nil in E.
  - destruct (list_eq_dec (list_eq_dec N.eq_dec) dirs out) as [->|Z].
    + rewrite A. destruct (output outs name) as [b|] eqn:O; [|reflexivity]. destruct (EN _ _ O) as (s & ->). now elim (Q s).
    + apply B. intros m E. now apply snoc_inj in E as (-> & _).
Qed.
Lemma reg_not_nil w : is_reg_file w = true -> w <> []. Proof. intros H ->. discriminate H. Qed.

Section DumpWalk.
Context (o : outside) (n : nat) (c : choices) (base out : path) (d0 f : folder) (L : lists base d0 f).
Notation e := (extension_of (ch_type c)).
Lemma dump_as ws : forall d outs, laid out d0 outs d -> ended_in e outs -> ends_as out d0 (dump_walk o n c base out ws d) (dump_files o n c f (view base d0 ws) outs).
Proof.
  induction ws as [|w ws IH]; intros d outs LD EN; [exact LD|]. cbn [dump_walk view flat_map]. fold (view base d0 ws).
  destruct (is_reg_file w) eqn:R.
  - cbn [andb]. pose proof (reg_not_nil w R) as Z. pose proof (laid_quiet out e d0 outs d (base ++ w) LD EN (evidence_quiet out e _ (dump_ext _) (reg_evidence base w R))) as E.
    unfold contents at 1. rewrite E. destruct w as [|x w]; [congruence|]. destruct (read_file (base ++ x :: w) d0) as [b|] eqn:B.
    + cbn [app dump_files fst snd]. rewrite R. cbn [andb]. destruct (file_has_size b); [|now apply IH]. cbv zeta.
      assert (PF : process_file o n c d (base ++ x :: w) (contents (base ++ x :: w) d) = process_file o n c f (x :: w) b).
      { unfold process_file, contents. rewrite E. f_equal. rewrite (log_files_by (ch_skip_logs c) d f (base ++ x :: w) (x :: w)); [reflexivity|].
        intros le H. rewrite log_place_of by discriminate. rewrite (lists_read base d0 f _ L (log_place_not _ _)).
        rewrite <- log_place_of by discriminate. apply (laid_quiet out e d0 outs d _ LD EN). apply evidence_quiet; [apply dump_ext|]. now apply log_evidence. }
      rewrite PF. destruct (process_file o n c f (x :: w) b); try (now apply IH); try (exists d; now split).
      * apply IH; [now apply laid_write|now apply ended_write].
      * apply IH; [now apply laid_write|now apply ended_write].
    + cbn [app]. now apply IH.
  - cbn [andb]. destruct w as [|x w]; [now apply IH|]. destruct (read_file (base ++ x :: w) d0) as [b|]; [|now apply IH].
    cbn [app dump_files fst]. rewrite R. cbn [andb]. now apply IH.
Qed.
End DumpWalk.

Section CompareWalk.
Context (o : compare_outside) (n : nat) (c : compare_choices) (base comparison out : path) (d0 f g : folder) (L : lists base d0 f) (L' : lists comparison d0 g).
Notation e := (compare_extension c).
Lemma given_as b0 (h : folder) w d outs name : lists b0 d0 h -> laid out d0 outs d -> ended_in e outs -> is_reg_file w = true -> name = get_outpath w e ->
  match read_file (b0 ++ w) (write_file (out ++ [name]) [] d) with
  | Some bytes => (bytes, map (fun q => contents q (write_file (out ++ [name]) [] d)) (log_paths (cc_skip_logs c) d (b0 ++ w)))
  | None => ([], [])
  end = match read_file w h with Some bytes => (bytes, or_none (get_log_files (cc_skip_logs c) h w)) | None => ([], []) end.
Proof.
  intros LH LD EN R ->. pose proof (reg_not_nil w R) as Z. destruct (outpath_named w e) as (s & NE).
  assert (OT : forall q, evidence q -> read_file q (write_file (out ++ [get_outpath w e]) [] d) = read_file q d).
  { intros q Q. apply read_write_other. rewrite NE. apply (evidence_quiet out e q (compare_ext c) Q). }
  assert (OD : forall q, evidence q -> read_file q d = read_file q d0).
  { intros q Q. apply (laid_quiet out e d0 outs d q LD EN). now apply evidence_quiet; [apply compare_ext|]. }
  rewrite (OT _ (reg_evidence b0 w R)), (OD _ (reg_evidence b0 w R)), (lists_read b0 d0 h w LH Z).
  destruct (read_file (b0 ++ w) d0); [|reflexivity]. f_equal.
  rewrite log_paths_by by (intros le H; apply OT; now apply log_evidence). f_equal. apply log_files_by. intros le H.
  rewrite (OD (log_place (b0 ++ w) le)) by (now apply log_evidence). rewrite log_place_of by exact Z. now rewrite (lists_read b0 d0 h _ LH (log_place_not _ _)).
Qed.
Lemma compare_as ws : forall d outs, laid out d0 outs d -> ended_in e outs ->
  ends_as out d0 (compare_walk o n c base comparison out ws d) (compare_files o n c f g (view base d0 ws) outs).
Proof.
  induction ws as [|w ws IH]; intros d outs LD EN; [exact LD|]. cbn [compare_walk view flat_map]. fold (view base d0 ws).
  destruct (is_reg_file w) eqn:R.
  - cbn [andb]. pose proof (reg_not_nil w R) as Z.
    assert (OD : forall b0, read_file (b0 ++ w) d = read_file (b0 ++ w) d0).
    { intros b0. apply (laid_quiet out e d0 outs d _ LD EN). apply evidence_quiet; [apply compare_ext|now apply reg_evidence]. }
    unfold contents. rewrite !OD. unfold compare_at. cbv zeta. rewrite (given_as base f w d outs _ L LD EN R eq_refl), (given_as comparison g w d outs _ L' LD EN R eq_refl).
    rewrite (lists_read base d0 f w L Z), (lists_read comparison d0 g w L' Z).
    destruct w as [|x w]; [congruence|]. destruct (read_file (base ++ x :: w) d0) as [b|] eqn:B; [|now apply IH].
    cbn [app compare_files fst snd]. rewrite R. cbn [andb]. destruct (file_has_size b); cbn [andb]; [|now apply IH].
    rewrite (lists_read comparison d0 g _ L' Z). destruct (read_file (comparison ++ x :: w) d0) as [b'|]; [|now apply IH].
    destruct (file_has_size b'); [|now apply IH]. cbv zeta. unfold or_none.
    destruct (compare_pair o n c (x :: w) _ _); try (now apply IH).
    + apply IH; [now apply laid_twice|now apply ended_write].
    + apply IH; [now apply laid_write|now apply ended_write].
    + exists d. split; [exact LD|]. intros p. apply read_write_other.
    + exists d. split; [exact LD|]. intros p. apply read_write_other.
  - cbn [andb]. destruct w as [|x w]; [now apply IH|]. destruct (read_file (base ++ x :: w) d0) as [b|]; [|now apply IH].
    cbn [app compare_files fst]. rewrite R. cbn [andb]. now apply IH.
Qed.
End CompareWalk.

(** ** What is there after a run that went through *)
Lemma dump_disk o n c base out ws d f d' : lists base d f -> walked f ws -> plain_folder f -> dump_walk o n c base out ws d = Through d' ->
  (forall w b logs, In (w, b) f -> hive_file w b -> used_logs (ch_skip_logs c) f w logs -> exists name, named_after w (extension_of (ch_type c)) name
     /\ match reg_dump o n c b logs with
        | NotOpened => read_file (out ++ [name]) d' = read_file (out ++ [name]) d
        | Written x => read_file (out ++ [name]) d' = Some x
        | GivenUp => read_file (out ++ [name]) d' = Some (os_left o)
        | Aborted | Endless => False
        end)
  /\ (forall q, read_file q d' <> read_file q d -> exists w b name, In (w, b) f /\ hive_file w b /\ named_after w (extension_of (ch_type c)) name /\ q = out ++ [name]).
Proof.
  intros L W PF E. pose proof (view_lists base d f ws L W) as LV. pose proof (lists_plain base d f _ L LV PF) as PV.
  pose proof (dump_as o n c base out d _ LV ws d [] (laid_start out d)) as A. rewrite E in A. specialize (A (fun name b H => ltac:(discriminate H))).
  fold (dump_folder o n c (view base d ws) []) in A. destruct (dump_folder o n c (view base d ws) []) as [outs| |] eqn:F; try contradiction. destruct A as (A & B). cbn [ends_as] in A.
  destruct (run_outputs o n c _ [] outs PV F) as (X & Y). split.
  - intros w b logs I H U. destruct (X w b logs (lists_same _ _ _ _ _ _ L LV I) H (lists_logs _ _ _ _ _ _ _ L LV U)) as (name & NM & O). exists name. split; [exact NM|].
    destruct (reg_dump o n c b logs); try exact O; rewrite A, O; reflexivity.
  - intros q Q. destruct (path_cases q) as [->|(dirs & name & ->)]; [elim Q; apply B; intros name H; symmetry in H; now apply app_eq_nil in H|].
    destruct (list_eq_dec (list_eq_dec N.eq_dec) dirs out) as [->|Z]; [|elim Q; apply B; intros m H; now apply snoc_inj in H as (-> & _)].
    rewrite A in Q. destruct (Y name) as (w & b & I & H & NM). { intros O. rewrite O in Q. now elim Q. }
    exists w, b, name. split; [exact (lists_same _ _ _ _ _ _ LV L I)|]. split; [exact H|]. now split.
Qed.
Lemma lists_paired base d f f' comparison g s p x y : lists base d f -> lists base d f' -> lists comparison d g ->
  paired s f g p x y -> paired s f' g p x y.
Proof. intros A B C (I & H & U & R). split; [exact (lists_same _ _ _ _ _ _ A B I)|]. split; [exact H|]. split; [exact (lists_logs _ _ _ _ _ _ _ A B U)|exact R]. Qed.
Lemma compare_disk o n c base comparison out ws d f g d' : lists base d f -> lists comparison d g -> walked f ws -> plain_folder f ->
  compare_walk o n c base comparison out ws d = Through d' ->
  (forall w x y, paired (cc_skip_logs c) f g w x y -> exists name, named_after w (compare_extension c) name
     /\ match compare_pair o n c w x y with
        | Reported r => read_file (out ++ [name]) d' = Some r
        | Failed => read_file (out ++ [name]) d' = Some []
        | PairAborted | PairEndless => False
        end)
  /\ (forall q, read_file q d' <> read_file q d -> exists w x y name, paired (cc_skip_logs c) f g w x y /\ named_after w (compare_extension c) name /\ q = out ++ [name]).
Proof.
  intros L L' W PF E. pose proof (view_lists base d f ws L W) as LV. pose proof (lists_plain base d f _ L LV PF) as PV.
  pose proof (compare_as o n c base comparison out d _ g LV L' ws d [] (laid_start out d)) as A. rewrite E in A. specialize (A (fun name b H => ltac:(discriminate H))).
  fold (compare_folders o n c (view base d ws) g []) in A. destruct (compare_folders o n c (view base d ws) g []) as [outs| |] eqn:F; try contradiction. destruct A as (A & B).
  destruct (compare_outputs o n c _ g (proj1 PV) (proj1 L') PV [] outs F) as (X & Y). split.
  - intros w x y P. destruct (X w x y (lists_paired _ _ _ _ _ _ _ _ _ _ L LV L' P)) as (name & NM & O). exists name. split; [exact NM|].
    destruct (compare_pair o n c w x y); try exact O; rewrite A, O; reflexivity.
  - intros q Q. destruct (path_cases q) as [->|(dirs & name & ->)]; [elim Q; apply B; intros name H; symmetry in H; now apply app_eq_nil in H|].
    destruct (list_eq_dec (list_eq_dec N.eq_dec) dirs out) as [->|Z]; [|elim Q; apply B; intros m H; now apply snoc_inj in H as (-> & _)].
    rewrite A in Q. destruct (Y name) as (w & x & y & P & NM). { intros O. rewrite O in Q. now elim Q. }
    exists w, x, y, name. split; [exact (lists_paired _ _ _ _ _ _ _ _ _ _ LV L L' P)|]. now split.
Qed.
Lemma dump_ends_as o n c base out ws d f : lists base d f -> walked f ws ->
  exists f', lists base d f' /\ ends_as out d (dump_walk o n c base out ws d) (dump_folder o n c f' []).
Proof.
  intros L W. pose proof (view_lists base d f ws L W) as LV. exists (view base d ws). split; [exact LV|].
  apply (dump_as o n c base out d _ LV ws d [] (laid_start out d)). intros name b H. discriminate H.
Qed.
Lemma compare_ends_as o n c base comparison out ws d f g : lists base d f -> lists comparison d g -> walked f ws ->
  exists f', lists base d f' /\ ends_as out d (compare_walk o n c base comparison out ws d) (compare_folders o n c f' g []).
Proof.
  intros L L' W. pose proof (view_lists base d f ws L W) as LV. exists (view base d ws). split; [exact LV|].
  apply (compare_as o n c base comparison out d _ g LV L' ws d [] (laid_start out d)). intros name b H. discriminate H.
Qed.

(** ** One file *)
Lemma dump_one o n c input output d b logs : NoDup (map fst d) -> input <> [] -> read_file input d = Some b -> used_logs (ch_skip_logs c) d input logs ->
  dump_file o n c input output d = match reg_dump o n c b logs with
                                   | NotOpened => Through d
                                   | Written out => Through (write_file output out d)
                                   | GivenUp => Through (write_file output (os_left o) d)
                                   | Aborted => Broken d output
                                   | Endless => Stuck d output
                                   end.
Proof.
  intros ND Z R U. unfold dump_file. destruct input as [|x w]; [congruence|]. rewrite R. unfold process_file.
  assert (EL : or_none (get_log_files (ch_skip_logs c) d (x :: w)) = logs).
  { apply (used_one (ch_skip_logs c) d (x :: w) _ _ ND); [|exact U]. destruct (path_cases (x :: w)) as [?|(dirs & name & E)]; [congruence|]. rewrite E.
    destruct (ch_skip_logs c); [reflexivity|]. destruct (logs_given d dirs name) as (l & G & B). rewrite G. exact B. }
  unfold or_none in EL. now rewrite EL.
Qed.
Lemma dump_file_keeps o n c input output d q : q <> output -> read_file q (left_on (dump_file o n c input output d)) = read_file q d.
Proof.
  intros Q. unfold dump_file. destruct input; [reflexivity|]. destruct (read_file _ d); [|reflexivity].
  destruct (process_file _ _ _ _ _ _); try reflexivity; now apply read_write_other.
Qed.
Lemma compare_file_keeps o n c base comparison output d q : q <> output -> read_file q (left_on (compare_file o n c base comparison output d)) = read_file q d.
Proof.
  intros Q. unfold compare_file. destruct base; [reflexivity|]. destruct comparison; [reflexivity|]. cbv zeta.
  destruct (compare_at _ _ _ _ _ _ _ _); cbn [left_on]; rewrite ?read_write_other by exact Q; reflexivity.
Qed.
Lemma given_one skip output p d b logs : NoDup (map fst d) -> p <> [] -> aside output p -> read_file p d = Some b -> used_logs skip d p logs ->
  match read_file p (write_file output [] d) with
  | Some bytes => (bytes, map (fun q => contents q (write_file output [] d)) (log_paths skip d p))
  | None => ([], [])
  end = (b, logs).
Proof.
  intros ND Z (A & B) R U. rewrite read_write_other by congruence. rewrite R. f_equal.
  destruct (path_cases p) as [?|(dirs & name & E)]; [congruence|]. rewrite log_paths_by.
  - apply (used_one skip d p _ _ ND); [|exact U]. rewrite E. destruct skip; [reflexivity|]. destruct (logs_given d dirs name) as (l & G & H). rewrite G. exact H.
  - intros e H. apply read_write_other. unfold log_place. rewrite E, removelast_last, last_snoc, log_name_of. apply not_eq_sym. now apply B.
Qed.
Lemma compare_one o n c base comparison output d b l b' l' : NoDup (map fst d) -> base <> [] -> comparison <> [] -> aside output base -> aside output comparison ->
  read_file base d = Some b -> used_logs (cc_skip_logs c) d base l -> read_file comparison d = Some b' -> used_logs (cc_skip_logs c) d comparison l' ->
  compare_file o n c base comparison output d =
  let d1 := write_file output [] d in
  match compare_pair o n c base (b, l) (b', l') with
  | Reported x => Through (write_file output x d1)
  | Failed => Through d1
  | PairAborted => Broken d1 output
  | PairEndless => Stuck d1 output
  end.
Proof.
  intros ND Z Z' A A' R U R' U'. unfold compare_file, compare_at. destruct base as [|x base]; [congruence|]. destruct comparison as [|y comparison]; [congruence|]. cbv zeta.
  rewrite (given_one _ _ _ _ _ _ ND Z A R U), (given_one _ _ _ _ _ _ ND Z' A' R' U'). reflexivity.
Qed.

(** ** An empty file does not open *)
Lemma empty_build order n hash recover full files p : build order n hash recover full [] files <> Ok p.
Proof.
  unfold build. destruct (TxLog.parse_logs files) as [[logs w]| | |]; discriminate.
Qed.
Lemma empty_pair o n c w x y : fst x = [] \/ fst y = [] -> forall r, compare_pair o n c w x y <> Reported r.
Proof.
  intros H r. unfold compare_pair. destruct (compare_parser o n x) as [p1| | |] eqn:E1; try discriminate. cbv beta iota.
  destruct (iterate n p1 (compare_filter c) false true false); try discriminate. cbv beta iota.
  destruct (compare_parser o n y) as [p2| | |] eqn:E2; try discriminate. exfalso. unfold compare_parser in *. destruct H as [H|H]; rewrite H in *; [exact (empty_build _ _ _ _ _ _ _ E1)|exact (empty_build _ _ _ _ _ _ _ E2)].
Qed.
Lemma compare_over o n c base comparison output d : base <> [] -> comparison <> [] -> output = base \/ output = comparison ->
  read_file output (left_on (compare_file o n c base comparison output d)) = Some [].
Proof.
  intros Z Z' H. unfold compare_file. destruct base as [|x base]; [congruence|]. destruct comparison as [|y comparison]; [congruence|]. cbv zeta.
  destruct (compare_at _ _ _ _ _ _ _ _) as [r| | |] eqn:E; cbn [left_on]; try apply read_write_same. exfalso. revert E. apply empty_pair.
  destruct H as [-> | ->]; [left|right]; rewrite read_write_same; reflexivity.
Qed.
