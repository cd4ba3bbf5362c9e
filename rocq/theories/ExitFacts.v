(** How the tools end. *)
From Coq Require Import String.
From Verif Require Import Base BaseFacts Types Parser TxLog Log Export Json Compare Folder FolderSpec FolderFacts Dump CompareRun CompareRunSpec Disk DiskSpec DiskFacts
  DumpFacts Sink SinkSpec SinkFacts Exit ExitSpec.
Open Scope N_scope.
Open Scope list_scope.

Lemma aset_twice p (x y : list N) d : aset path_eqb p x (aset path_eqb p y d) = aset path_eqb p x d.
Proof.
  induction d as [|[q z] d IH]; cbn [aset].
  - now rewrite (proj2 (path_eqb_eq p p) eq_refl).
  - destruct (path_eqb p q) eqn:E; cbn [aset]; rewrite E; [reflexivity|now rewrite IH].
Qed.
Lemma write_twice p x y d : write_file p x (write_file p y d) = write_file p x d.
Proof. apply aset_twice. Qed.

Lemma calm_dump capacity ci cut o n c buffer logs : cuts cut -> calm ci ->
  dump_told capacity ci cut o n c buffer logs = match reg_dump o n c buffer logs with
    | NotOpened => Tells false None | Written x => Tells true (Some x) | GivenUp => Tells false (Some (os_left o))
    | Aborted => ToldAborted | Endless => ToldEndless end.
Proof.
  intros C (O & S & L & P). unfold dump_told, dump_to. rewrite O. destruct (reg_dump o n c buffer logs) as [|x| | |]; try reflexivity.
  rewrite (proj1 S), (sound_write _ _ _ S), C, L. reflexivity.
Qed.
Lemma calm_compare capacity ci cut o n c w pair : cuts cut -> calm ci ->
  compare_told capacity ci cut o n c w pair = match compare_pair o n c w (fst pair) (snd pair) with
    | Reported x => Tells true (Some x) | Failed => Tells false (Some []) | PairAborted => ToldAborted | PairEndless => ToldEndless end.
Proof.
  intros C (O & S & L & P). unfold compare_told, compare_to. rewrite P, (proj1 S). destruct (compare_pair _ _ _ _ _ _) as [x| | |]; try reflexivity.
  now rewrite (sound_write _ _ _ S), C.
Qed.

(** Without failures, the runs of Disk.v. *)
Lemma dump_main_as capacity ci cut o n c input output d : cuts cut -> calm ci ->
  untold (dump_main capacity ci cut o n c input output d) = dump_file o n c input output d.
Proof.
  intros C K. unfold dump_main, dump_file, process_file. destruct input as [|x input]; [reflexivity|].
  destruct (read_file (x :: input) d) as [bytes|]; [|reflexivity]. rewrite (calm_dump _ _ _ _ _ _ _ _ C K).
  destruct (reg_dump o n c bytes _); reflexivity.
Qed.
Lemma dump_folder_as capacity ci cut o n c base out ws : cuts cut -> (forall w, calm (ci w)) -> forall d,
  untold (dump_main_folder capacity ci cut o n c base out ws d) = dump_walk o n c base out ws d.
Proof.
  intros C K. induction ws as [|w ws IH]; intros d; [reflexivity|]. cbn [dump_main_folder dump_walk]. cbv zeta.
  destruct (is_reg_file w); [|apply IH]. cbn [andb]. destruct (file_has_size (contents (base ++ w) d)).
  - unfold process_file. rewrite (calm_dump _ _ _ _ _ _ _ _ C (K w)). destruct (reg_dump o n c _ _); cbn [put_file]; try apply IH; reflexivity.
  - destruct (K w) as (_ & _ & _ & ->). apply IH.
Qed.
Lemma given_at o n c w base comparison d d1 :
  compare_pair o n c w (fst (given_pair c base comparison d d1)) (snd (given_pair c base comparison d d1)) = compare_at o n c w base comparison d d1.
Proof. reflexivity. Qed.
Lemma compare_main_as capacity ci cut o n c base comparison output d : cuts cut -> calm ci ->
  untold (compare_main capacity ci cut o n c base comparison output d) = compare_file o n c base comparison output d.
Proof.
  intros C K. unfold compare_main, compare_file, made_first. destruct base as [|x base]; [reflexivity|]. destruct comparison as [|y comparison]; [reflexivity|].
  destruct K as (O & S & R). rewrite (proj1 S). cbv zeta. rewrite (calm_compare capacity ci cut) by (repeat split; tauto || apply S). rewrite given_at.
  destruct (compare_at _ _ _ _ _ _ _ _); cbn [put_file untold]; try reflexivity. now rewrite write_twice.
Qed.
Lemma compare_folder_as capacity ci cut o n c base comparison out ws : cuts cut -> (forall w, calm (ci w)) -> forall d,
  untold (compare_main_folder capacity ci cut o n c base comparison out ws d) = compare_walk o n c base comparison out ws d.
Proof.
  intros C K. induction ws as [|w ws IH]; intros d; [reflexivity|]. cbn [compare_main_folder compare_walk]. cbv zeta.
  destruct (K w) as (O & S & L & P). rewrite P.
  destruct (is_reg_file w); [|apply IH]. cbn [andb]. destruct (file_has_size (contents (base ++ w) d)); cbn [andb]; [|apply IH].
  unfold contents at 1. destruct (read_file (comparison ++ w) d) as [other|]; [|cbn [file_has_size]; apply IH].
  destruct (file_has_size other); [|apply IH].
  unfold made_first. rewrite (proj1 S). rewrite (calm_compare capacity (ci w) cut) by (repeat split; tauto || apply S). rewrite given_at.
  destruct (compare_at _ _ _ _ _ _ _ _); cbn [put_file orb]; try reflexivity; [apply IH|]. rewrite write_twice. apply IH.
Qed.

(** A run over a folder that ends tells of success. *)
Lemma dump_folder_success capacity ci cut o n c base out ws : forall d ok d',
  dump_main_folder capacity ci cut o n c base out ws d = Ends ok d' -> ok = true.
Proof.
  induction ws as [|w ws IH]; intros d ok d'; cbn [dump_main_folder]; cbv zeta; [now intros [= <-]|].
  destruct (is_reg_file w); [|apply IH]. destruct (file_has_size _).
  - destruct (dump_told _ _ _ _ _ _ _ _); try discriminate. apply IH.
  - destruct (ci_prints (ci w)); [apply IH|discriminate].
Qed.
Lemma compare_folder_success capacity ci cut o n c base comparison out ws : forall d ok d',
  compare_main_folder capacity ci cut o n c base comparison out ws d = Ends ok d' -> ok = true.
Proof.
  induction ws as [|w ws IH]; intros d ok d'; cbn [compare_main_folder]; cbv zeta; [now intros [= <-]|].
  destruct (is_reg_file w); [|apply IH]. destruct (file_has_size _).
  - destruct (read_file _ _); [|apply IH]. destruct (file_has_size _).
    + destruct (compare_told _ _ _ _ _ _ _ _); try discriminate. destruct (_ || _); [apply IH|discriminate].
    + destruct (ci_prints (ci w)); [apply IH|discriminate].
  - destruct (ci_prints (ci w)); [apply IH|discriminate].
Qed.

(** One hive, whatever fails. *)
Lemma write_out_nearly capacity dv acts : fst (write_out capacity dv acts) = true ->
  exists rest, handed acts = snd (write_out capacity dv acts) ++ rest /\ len rest <= capacity.
Proof. pose proof (outcome_of capacity dv acts) as O. destruct (write_out capacity dv acts). exact (proj2 O). Qed.
Lemma found_logs o n c d input b logs : NoDup (map fst d) -> input <> [] -> used_logs (ch_skip_logs c) d input logs ->
  process_file o n c d input b = reg_dump o n c b logs.
Proof.
  intros ND Z U. unfold process_file.
  assert (EL : or_none (get_log_files (ch_skip_logs c) d input) = logs).
  { apply (used_one (ch_skip_logs c) d input _ _ ND); [|exact U]. destruct (path_cases input) as [?|(dirs & name & E)]; [congruence|]. rewrite E.
    destruct (ch_skip_logs c); [reflexivity|]. destruct (logs_given d dirs name) as (l & G & B). rewrite G. exact B. }
  unfold or_none in EL. now rewrite EL.
Qed.
Lemma dump_main_success capacity ci cut o n c input output d d' : cuts cut -> dump_main capacity ci cut o n c input output d = Ends true d' ->
  exists b x, read_file input d = Some b /\ process_file o n c d input b = Written x /\ nearly capacity output x d'.
Proof.
  intros C. unfold dump_main, process_file. destruct input as [|z input]; [discriminate|].
  destruct (read_file (z :: input) d) as [b|]; [|discriminate]. unfold dump_told. destruct (ci_opening ci); [|discriminate].
  unfold dump_to. set (lg := match get_log_files _ _ _ with Some l => l | None => [] end).
  destruct (reg_dump o n c b lg) as [|x| | |] eqn:E; try discriminate.
  destruct (dv_creates (ci_device ci)); [|discriminate].
  pose proof (write_out_nearly capacity (ci_device ci) (cut x)) as W. destruct (write_out capacity (ci_device ci) (cut x)) as [ok file]. cbn [fst snd] in W.
  destruct ok; [|discriminate]. destruct (ci_last ci); [|discriminate]. intros [= <-]. destruct (W eq_refl) as (rest & R & L). rewrite C in R.
  exists b, x. split; [reflexivity|]. split; [exact E|]. exists file, rest. split; [|now split]. cbn [put_file]. apply read_write_same.
Qed.
Lemma compare_main_success capacity ci cut o n c base comparison output d d' : cuts cut ->
  compare_main capacity ci cut o n c base comparison output d = Ends true d' ->
  exists x, compare_at o n c base base comparison d (write_file output [] d) = Reported x /\ nearly capacity output x d'.
Proof.
  intros C. unfold compare_main. destruct base as [|z base]; [discriminate|]. destruct comparison as [|y comparison]; [discriminate|]. cbv zeta.
  unfold compare_told, made_first. destruct (dv_creates (ci_device ci)) eqn:CR; [|discriminate]. destruct (ci_prints ci); [|discriminate].
  unfold compare_to. rewrite CR, given_at. destruct (compare_at _ _ _ _ _ _ _ _) as [x| | |] eqn:E; try discriminate.
  pose proof (write_out_nearly capacity (ci_device ci) (cut x)) as W. destruct (write_out capacity (ci_device ci) (cut x)) as [ok file]. cbn [fst snd] in W.
  intros [= -> <-]. destruct (W eq_refl) as (rest & R & L). rewrite C in R.
  exists x. split; [reflexivity|]. exists file, rest. split; [|now split]. cbn [put_file]. apply read_write_same.
Qed.
