(** Facts about how a hive is handed over (C72). *)
From Verif Require Import Base Types Parser TxLog Folder Disk DiskFacts Source SourceSpec.
Open Scope list_scope.

(** ** Readers *)
Lemma patient_honest turns : patient turns -> honest turns.
Proof. intros P I. destruct (P _ I) as [E|(k & E)]; discriminate. Qed.
Lemma loop_patient turns : patient turns -> forall rest, exists t, read_loop turns rest = (true, rest, [], t).
Proof.
  induction turns as [|a turns IH]; intros P rest; [now exists []|].
  assert (P' : patient turns) by (intros t I; apply P; now right). destruct (P a (or_introl eq_refl)) as [->|(k & ->)]; cbn [read_loop]; [now apply IH|].
  destruct rest as [|x rest]; [now exists turns|]. cbn [firstn skipn]. destruct (IH P' (skipn k rest)) as (t & ->). exists t. cbn [app]. now rewrite firstn_skipn.
Qed.
Lemma loop_honest turns : honest turns -> forall rest, match read_loop turns rest with (ok, got, rem, t) => honest t /\ rest = got ++ rem /\ (ok = true -> got = rest /\ rem = []) end.
Proof.
  induction turns as [|a turns IH]; intros P rest; cbn [read_loop]; [split; [exact P|]; split; [now rewrite app_nil_r|now split]|].
  assert (P' : honest turns) by (intros I; apply P; now right). destruct a as [k| |].
  - destruct k as [|k]; [elim P; now left|]. destruct rest as [|x rest]; [now repeat split|]. cbn [firstn skipn]. specialize (IH P' (skipn k rest)).
    destruct (read_loop turns (skipn k rest)) as [[[ok more] rem] t]. destruct IH as (H & E & O). split; [exact H|]. split.
    + cbn [app]. rewrite <- (firstn_skipn k rest) at 1. now rewrite E, app_assoc.
    + intros T. destruct (O T) as (A & B). split; [cbn [app]; now rewrite A, firstn_skipn|exact B].
  - now apply IH.
  - split; [exact P'|]. split; [reflexivity|discriminate].
Qed.
Lemma loop_spent turns : match read_loop turns [] with (ok, got, rem, t) => got = [] /\ rem = [] end.
Proof.
  induction turns as [|[k| |] turns IH]; cbn [read_loop]; [now split| |exact IH|now split].
  destruct k; now split.
Qed.
Lemma read_patient s : patient (sr_turns s) -> exists t, read_to_end s = (Some (sr_after s), mkStream (sr_before s ++ sr_after s) [] t).
Proof. intros P. unfold read_to_end. destruct (loop_patient _ P (sr_after s)) as (t & ->). now exists t. Qed.
Lemma read_honest s : honest (sr_turns s) -> match read_to_end s with
  | (Some x, s') => x = sr_after s /\ sr_after s' = []
  | (None, _) => True
  end.
Proof.
  intros P. unfold read_to_end. pose proof (loop_honest _ P (sr_after s)) as L. destruct (read_loop (sr_turns s) (sr_after s)) as [[[ok got] rem] t]. destruct L as (_ & _ & O).
  destruct ok; [|exact I]. destruct (O eq_refl) as (A & B). split; [exact A|exact B].
Qed.
Lemma read_spent s : sr_after s = [] -> fst (read_to_end s) = None \/ fst (read_to_end s) = Some [].
Proof.
  intros E. unfold read_to_end. rewrite E. pose proof (loop_spent (sr_turns s)) as L. destruct (read_loop (sr_turns s) []) as [[[ok got] rem] t]. destruct L as (-> & _).
  destruct ok; [right|left]; reflexivity.
Qed.
Lemma spent_stays s : sr_after s = [] -> sr_after (snd (read_to_end s)) = [].
Proof.
  intros E. unfold read_to_end. rewrite E. pose proof (loop_spent (sr_turns s)) as L. destruct (read_loop (sr_turns s) []) as [[[ok got] rem] t]. apply L.
Qed.
Lemma files_patient ss files : Forall2 (fun s f => sr_after s = f /\ patient (sr_turns s)) ss files -> read_files ss = (true, files).
Proof.
  induction 1 as [|s f ss files (A & P) _ IH]; [reflexivity|]. cbn [read_files]. destruct (read_patient _ P) as (t & ->). cbn [fst]. now rewrite A, IH.
Qed.
Lemma files_honest ss files : Forall2 (fun s f => sr_after s = f /\ honest (sr_turns s)) ss files -> fst (read_files ss) = true -> read_files ss = (true, files).
Proof.
  induction 1 as [|s f ss files (A & P) _ IH]; [reflexivity|]. cbn [read_files]. pose proof (read_honest _ P) as R. destruct (read_to_end s) as [[x|] s']; [|discriminate]. cbn [fst].
  destruct R as (-> & _). destruct (read_files ss) as [ok fs]. cbn [fst] in *. intros T. specialize (IH T). injection IH as -> ->. now rewrite A.
Qed.

(** ** Builders *)
Lemma decided_one {L} (pick : call L -> option bool) (get : builder L -> bool) :
  get new_builder = false -> (forall b c, get (called b c) = match pick c with Some on => on | None => get b end) ->
  forall calls on, decided pick calls on -> get (prepared calls) = on.
Proof.
  intros G0 G. assert (K : forall calls b, (forall c, In c calls -> pick c = None) -> get (fold_left called calls b) = get b).
  { induction calls as [|c calls IH]; intros b N; [reflexivity|]. cbn [fold_left]. rewrite IH, G, N; [reflexivity|now left|intros; apply N; now right]. }
  intros calls on [(before & c & after & -> & P & N)|(-> & N)]; unfold prepared.
  - rewrite fold_left_app. cbn [fold_left]. rewrite K by exact N. now rewrite G, P.
  - rewrite K by exact N. exact G0.
Qed.
Lemma prepared_recover {L} (calls : list (call L)) on : recovers calls on -> bl_recover (prepared calls) = on.
Proof. apply decided_one; [reflexivity|]. intros b [ | | | | ]; reflexivity. Qed.
Lemma prepared_full {L} (calls : list (call L)) on : in_full calls on -> bl_full (prepared calls) = on.
Proof. apply decided_one; [reflexivity|]. intros b [ | | | | ]; reflexivity. Qed.
Lemma prepared_logs {L} (calls : list (call L)) : bl_logs (prepared calls) = logs_named calls.
Proof.
  unfold prepared. assert (K : forall b, bl_logs (fold_left called calls b) = bl_logs b ++ logs_named calls); [|apply K].
  induction calls as [|c calls IH]; intros b; [cbn; now rewrite app_nil_r|]. cbn [fold_left]. rewrite IH. destruct c; cbn [called bl_logs logs_named]; try reflexivity. now rewrite <- app_assoc.
Qed.

Lemma from_file order fuel hash primary calls recover full bytes files :
  recovers calls recover -> in_full calls full -> sr_after primary = bytes -> patient (sr_turns primary) ->
  Forall2 (fun s f => sr_after s = f /\ patient (sr_turns s)) (logs_named calls) files ->
  build_from_file order fuel hash primary (prepared calls) = build order fuel hash recover full bytes files.
Proof.
  intros R F E P L. unfold build_from_file. rewrite (prepared_recover _ _ R), (prepared_full _ _ F), prepared_logs, (files_patient _ _ L).
  destruct (read_patient _ P) as (t & ->). cbn [fst]. now rewrite E.
Qed.
Lemma build_ok order fuel hash recover full hive logs p : read_build order fuel hash recover full hive logs = Ok p ->
  exists buffer, hive = Some buffer /\ fst logs = true /\ build order fuel hash recover full buffer (snd logs) = Ok p.
Proof.
  unfold read_build. destruct hive as [buffer|]; [|discriminate]. destruct (fst logs); [|destruct (parse_each (snd logs)) as [[? ?]| | |]; discriminate]. intros E. now exists buffer.
Qed.
Lemma from_file_whole order fuel hash primary calls recover full bytes files p :
  recovers calls recover -> in_full calls full -> sr_after primary = bytes -> honest (sr_turns primary) ->
  Forall2 (fun s f => sr_after s = f /\ honest (sr_turns s)) (logs_named calls) files ->
  build_from_file order fuel hash primary (prepared calls) = Ok p -> build order fuel hash recover full bytes files = Ok p.
Proof.
  intros R F E P L B. unfold build_from_file in B. rewrite (prepared_recover _ _ R), (prepared_full _ _ F), prepared_logs in B.
  apply build_ok in B as (buffer & H & T & B). rewrite (files_honest _ _ L T) in B. pose proof (read_honest _ P) as RH. destruct (read_to_end primary) as [[x|] s]; [|discriminate].
  cbn [fst snd] in *. injection H as <-. destruct RH as (-> & _). now rewrite <- E.
Qed.

Lemma open_all (ok : list turn -> Prop) pl ps files : Forall2 (fun p f => stored pl p f /\ ok (pl_turns pl p)) ps files ->
  exists ss, open_files pl ps = Some ss /\ Forall2 (fun s f => sr_after s = f /\ ok (sr_turns s)) ss files.
Proof.
  induction 1 as [|p f ps files (E & P) _ (ss & O & F)]; [now exists []|]. cbn [open_files]. unfold open_file at 1. rewrite E. cbn [option_map]. rewrite O.
  eexists. split; [reflexivity|]. constructor; [now split|exact F].
Qed.
Lemma from_path order fuel hash pl primary calls recover full bytes files :
  recovers calls recover -> in_full calls full -> stored pl primary bytes -> patient (pl_turns pl primary) ->
  Forall2 (fun p f => stored pl p f /\ patient (pl_turns pl p)) (logs_named calls) files ->
  build_from_path order fuel hash pl primary (prepared calls) = build order fuel hash recover full bytes files.
Proof.
  intros R F E P L. unfold build_from_path. rewrite (prepared_recover _ _ R), (prepared_full _ _ F), prepared_logs.
  destruct (open_all _ _ _ _ L) as (ss & -> & SS). unfold open_file. rewrite E. cbn [option_map]. rewrite (files_patient _ _ SS).
  destruct (read_patient (mkStream [] bytes (pl_turns pl primary)) P) as (t & ->). reflexivity.
Qed.
Lemma from_path_whole order fuel hash pl primary calls recover full bytes files p :
  recovers calls recover -> in_full calls full -> stored pl primary bytes -> honest (pl_turns pl primary) ->
  Forall2 (fun p f => stored pl p f /\ honest (pl_turns pl p)) (logs_named calls) files ->
  build_from_path order fuel hash pl primary (prepared calls) = Ok p -> build order fuel hash recover full bytes files = Ok p.
Proof.
  intros R F E P L B. unfold build_from_path in B. rewrite (prepared_recover _ _ R), (prepared_full _ _ F), prepared_logs in B.
  destruct (open_all _ _ _ _ L) as (ss & O & SS). rewrite O in B. unfold open_file in B. rewrite E in B. cbn [option_map] in B.
  apply build_ok in B as (buffer & H & T & B). rewrite (files_honest _ _ SS T) in B. pose proof (read_honest (mkStream [] bytes (pl_turns pl primary)) P) as RH.
  destruct (read_to_end _) as [[x|] s]; [|discriminate]. cbn [fst snd] in *. injection H as <-. now destruct RH as (-> & _).
Qed.
Lemma open_missing pl ps p : In p ps -> read_file p (pl_disk pl) = None -> open_files pl ps = None.
Proof.
  induction ps as [|q ps IH]; [easy|]. intros [->|I] E; cbn [open_files].
  - unfold open_file. now rewrite E.
  - rewrite (IH I E). now destruct (open_file pl q).
Qed.
Lemma path_missing order fuel hash pl primary calls p : In p (primary :: logs_named calls) -> read_file p (pl_disk pl) = None ->
  build_from_path order fuel hash pl primary (prepared calls) = Err.
Proof.
  intros [->|I] E; unfold build_from_path; rewrite prepared_logs.
  - unfold open_file. rewrite E. now destruct (open_files pl (logs_named calls)).
  - now rewrite (open_missing _ _ _ I E).
Qed.

(** ** Python *)
Lemma set_same i s w : set_object i s w i = s.
Proof. unfold set_object. now rewrite Nat.eqb_refl. Qed.
Lemma set_other i j s w : j <> i -> set_object i s w j = w j.
Proof. intros N. unfold set_object. now destruct (Nat.eqb_spec j i). Qed.

Definition fits (ok : list turn -> Prop) (w : objects) (r : reader) (bytes : list N) : Prop :=
  match r with
  | Own s => sr_after s = bytes /\ ok (sr_turns s)
  | Shared i => sr_after (w i) = bytes /\ ok (sr_turns (w i))
  end.
Fixpoint shared (rs : list reader) : list nat :=
  match rs with
  | [] => []
  | Shared i :: r => i :: shared r
  | Own _ :: r => shared r
  end.
Lemma to_readers ok pl w srcs files : Forall2 (stands_for ok pl w) srcs files ->
  exists rs, to_read_seeks pl srcs = Some rs /\ Forall2 (fits ok w) rs files /\ shared rs = objects_in srcs.
Proof.
  induction 1 as [|s f srcs files E _ (rs & O & F & S0)]; [now exists []|]. cbn [to_read_seeks objects_in]. destruct s as [p|i|]; cbn [stands_for to_read_seek] in *; [| |elim E].
  - destruct E as (E & T). unfold open_file. rewrite E. cbn [option_map]. rewrite O. eexists. split; [reflexivity|]. split; [constructor; [now split|exact F]|exact S0].
  - destruct E as ((_ & E) & T). rewrite O. eexists. split; [reflexivity|]. split; [constructor; [now split|exact F]|]. cbn [shared]. now rewrite S0.
Qed.
Lemma fits_set ok w i s rs files : ~ In i (shared rs) -> Forall2 (fits ok w) rs files -> Forall2 (fits ok (set_object i s w)) rs files.
Proof.
  intros N F. induction F as [|r f rs files E F IH]; [constructor|]. constructor.
  - destruct r as [s'|j]; [exact E|]. cbn [fits] in *. rewrite set_other; [exact E|]. intros ->. apply N. now left.
  - apply IH. intros I. apply N. destruct r; [exact I|now right].
Qed.
Lemma readers_patient rs files w : NoDup (shared rs) -> Forall2 (fits patient w) rs files -> exists w', read_readers rs w = (true, files, w').
Proof.
  intros D F. revert w files F D. induction rs as [|r rs IH]; intros w files F D; inversion F as [|? f ? fs E F']; subst; [now exists w|]. cbn [read_readers]. destruct r as [s|i]; cbn [read_reader fits shared] in *.
  - destruct E as (A & P). destruct (read_patient _ P) as (t & ->). cbn [fst]. destruct (IH _ _ F' D) as (w' & ->). exists w'. now rewrite A.
  - destruct E as (A & P). destruct (read_patient _ P) as (t & ->). inversion D as [|? ? N D']; subst. destruct (IH _ _ (fits_set _ _ _ (mkStream (sr_before (w i) ++ sr_after (w i)) [] t) _ _ N F') D') as (w' & ->). now exists w'.
Qed.
Lemma readers_honest rs files w : NoDup (shared rs) -> Forall2 (fits honest w) rs files ->
  match read_readers rs w with (ok, fs, w') => ok = true -> fs = files end.
Proof.
  intros D F. revert w files F D. induction rs as [|r rs IH]; intros w files F D; inversion F as [|? f ? fs E F']; subst; [easy|]. cbn [read_readers]. destruct r as [s|i]; cbn [read_reader fits shared] in *.
  - destruct E as (A & P). pose proof (read_honest _ P) as R. destruct (read_to_end s) as [[x|] s']; cbn [fst]; [|discriminate]. specialize (IH _ _ F' D). destruct (read_readers rs w) as [[ok more] w'].
    intros T. rewrite (IH T). destruct R as (-> & _); now rewrite A.
  - destruct E as (A & P). pose proof (read_honest _ P) as R. destruct (read_to_end (w i)) as [[x|] s']; cbn [fst]; [|discriminate]. inversion D as [|? ? N D']; subst.
    specialize (IH _ _ (fits_set _ _ _ s' _ _ N F') D'). destruct (read_readers rs _) as [[ok more] w']. intros T. rewrite (IH T). now destruct R as (-> & _).
Qed.
Lemma readers_own rs w : shared rs = [] -> snd (read_readers rs w) = w.
Proof.
  induction rs as [|[s|i] rs IH]; intros E; [reflexivity| |discriminate]. cbn [read_readers read_reader]. destruct (fst (read_to_end s)); [|reflexivity]. specialize (IH E).
  destruct (read_readers rs w) as [[ok more] w']. exact IH.
Qed.
Lemma split_no_dup src srcs : NoDup (objects_in (src :: srcs)) -> NoDup (objects_in srcs) /\ forall i, src = PyFileLike i -> ~ In i (objects_in srcs).
Proof.
  destruct src as [p|i|]; cbn [objects_in]; intros D; [now split| |now split]. inversion D as [|? ? N D']; subst. split; [exact D'|]. intros j E. now injection E as <-.
Qed.
Lemma from_python order fuel hash pl w b bytes files :
  NoDup (objects_in (pb_primary b :: pb_logs b)) -> stands_for patient pl w (pb_primary b) bytes -> Forall2 (stands_for patient pl w) (pb_logs b) files ->
  fst (py_build order fuel hash pl b w) = build order fuel hash (pb_recover b) false bytes files.
Proof.
  intros D P L. apply split_no_dup in D as (D & N). destruct (to_readers _ _ _ _ _ L) as (rs & O & F & S0). unfold py_build. destruct (pb_primary b) as [p|i|]; cbn [stands_for to_read_seek] in *; [| |elim P].
  - destruct P as (E & T). unfold open_file. rewrite E. cbn [option_map]. rewrite O. cbn [read_reader]. destruct (read_patient (mkStream [] bytes (pl_turns pl p)) T) as (t & ->). cbn [fst].
    rewrite <- S0 in D. destruct (readers_patient _ _ _ D F) as (w' & ->). reflexivity.
  - destruct P as ((_ & E) & T). rewrite O. cbn [read_reader]. destruct (read_patient _ T) as (t & ->).
    specialize (N i eq_refl). rewrite <- S0 in D, N. destruct (readers_patient _ _ _ D (fits_set _ _ _ (mkStream (sr_before (w i) ++ sr_after (w i)) [] t) _ _ N F)) as (w' & ->). cbn [fst snd read_build]. now rewrite E.
Qed.
Lemma from_python_whole order fuel hash pl w b bytes files p :
  NoDup (objects_in (pb_primary b :: pb_logs b)) -> stands_for honest pl w (pb_primary b) bytes -> Forall2 (stands_for honest pl w) (pb_logs b) files ->
  fst (py_build order fuel hash pl b w) = Ok p -> build order fuel hash (pb_recover b) false bytes files = Ok p.
Proof.
  intros D P L. apply split_no_dup in D as (D & N). destruct (to_readers _ _ _ _ _ L) as (rs & O & F & S0). unfold py_build. destruct (pb_primary b) as [q|i|]; cbn [stands_for to_read_seek] in *; [| |elim P].
  - destruct P as (E & T). unfold open_file. rewrite E. cbn [option_map]. rewrite O. cbn [read_reader]. pose proof (read_honest (mkStream [] bytes (pl_turns pl q)) T) as R.
    destruct (read_to_end _) as [[x|] s]; cbn [fst]; [|discriminate]. rewrite <- S0 in D. pose proof (readers_honest _ _ _ D F) as RH. destruct (read_readers rs w) as [[ok fs] w']. cbn [fst].
    intros B. apply build_ok in B as (buffer & H & A & B). injection H as <-. cbn [fst snd] in *. rewrite (RH A) in B. now destruct R as (-> & _).
  - destruct P as ((_ & E) & T). rewrite O. cbn [read_reader]. pose proof (read_honest _ T) as R. destruct (read_to_end (w i)) as [[x|] s]; [|discriminate].
    specialize (N i eq_refl). rewrite <- S0 in D, N. pose proof (readers_honest _ _ _ D (fits_set _ _ _ s _ _ N F)) as RH. destruct (read_readers rs _) as [[ok fs] w']. cbn [fst].
    intros B. apply build_ok in B as (buffer & H & A & B). injection H as <-. cbn [fst snd] in *. rewrite (RH A) in B. destruct R as (-> & _). now rewrite <- E.
Qed.
(** Objects are changed only where they are read. *)
Lemma python_kept order fuel hash pl w b : objects_in (pb_primary b :: pb_logs b) = [] -> snd (py_build order fuel hash pl b w) = w.
Proof.
  intros D. unfold py_build. destruct (to_read_seek pl (pb_primary b)) as [r|] eqn:E; [|reflexivity]. destruct (to_read_seeks pl (pb_logs b)) as [rs|] eqn:O; [|reflexivity].
  assert (S1 : forall srcs rs, to_read_seeks pl srcs = Some rs -> objects_in srcs = [] -> shared rs = []).
  { induction srcs as [|s srcs IH]; intros rs0 X D0; [now injection X as <-|]. cbn [to_read_seeks] in X. destruct (to_read_seek pl s) as [r0|] eqn:E0; [|discriminate]. destruct (to_read_seeks pl srcs) as [rs'|] eqn:X'; [|discriminate]. injection X as <-.
    destruct s as [q|i|]; try discriminate. cbn [to_read_seek] in E0. destruct (open_file pl q); [|discriminate]. injection E0 as <-. cbn [shared]. now apply IH. }
  destruct (pb_primary b) as [q|i|]; cbn [objects_in] in D; try discriminate. cbn [to_read_seek] in E. destruct (open_file pl q) as [s|]; [|discriminate]. injection E as <-. cbn [read_reader].
  destruct (fst (read_to_end s)); [|reflexivity]. pose proof (readers_own rs w (S1 _ _ O D)) as K. destruct (read_readers rs w) as [[ok fs] w']. exact K.
Qed.
(** What has been read to its end is not given again. *)
Lemma reader_spends r w i : sr_after (w i) = [] -> sr_after (snd (read_reader r w) i) = [].
Proof.
  intros E. destruct r as [s|j]; cbn [read_reader]; [exact E|]. destruct (Nat.eq_dec i j) as [->|N].
  - pose proof (spent_stays _ E) as S0. destruct (read_to_end (w j)) as [x s]. cbn [snd] in *. now rewrite set_same.
  - destruct (read_to_end (w j)) as [x s]. cbn [snd]. now rewrite set_other.
Qed.
Lemma readers_spend rs w i : sr_after (w i) = [] -> sr_after (snd (read_readers rs w) i) = [].
Proof.
  revert w. induction rs as [|r rs IH]; intros w E; [exact E|]. cbn [read_readers]. pose proof (reader_spends r w i E) as S0. destruct (read_reader r w) as [[f|] w1]; cbn [snd] in *; [|exact S0].
  specialize (IH _ S0). destruct (read_readers rs w1) as [[ok fs] w']. exact IH.
Qed.
Lemma python_spent order fuel hash pl w b i p : pb_primary b = PyFileLike i -> honest (sr_turns (w i)) -> fst (py_build order fuel hash pl b w) = Ok p ->
  sr_after (snd (py_build order fuel hash pl b w) i) = [].
Proof.
  intros E H. unfold py_build. rewrite E. cbn [to_read_seek]. destruct (to_read_seeks pl (pb_logs b)) as [rs|]; [|discriminate]. cbn [read_reader].
  pose proof (read_honest _ H) as R. destruct (read_to_end (w i)) as [[x|] s]; [|discriminate]. intros _. destruct R as (_ & R).
  pose proof (readers_spend rs (set_object i s w) i) as K. rewrite set_same in K. specialize (K R). destruct (read_readers rs _) as [[ok fs] w']. exact K.
Qed.
Lemma python_empty order fuel hash pl w b i p : pb_primary b = PyFileLike i -> sr_after (w i) = [] -> fst (py_build order fuel hash pl b w) <> Ok p.
Proof.
  intros E A. unfold py_build. rewrite E. cbn [to_read_seek]. destruct (to_read_seeks pl (pb_logs b)) as [rs|]; [|discriminate]. cbn [read_reader].
  pose proof (read_spent _ A) as R. destruct (read_to_end (w i)) as [x s]. cbn [fst] in R. destruct R as [->| ->]; [discriminate|]. destruct (read_readers rs _) as [[ok fs] w']. cbn [fst].
  intros B. apply build_ok in B as (buffer & H & _ & B). injection H as <-. exact (empty_build _ _ _ _ _ _ _ B).
Qed.

(** The Python builder after some calls. *)
Lemma py_prepared_as src calls : py_prepared src calls = mkPyBuilder src (bl_recover (prepared (map as_call calls))) (bl_logs (prepared (map as_call calls))).
Proof.
  unfold py_prepared, prepared.
  enough (X : forall calls b (b' : builder py_source), pb_primary b = src -> pb_recover b = bl_recover b' -> pb_logs b = bl_logs b' ->
    fold_left py_called calls b = mkPyBuilder src (bl_recover (fold_left called (map as_call calls) b')) (bl_logs (fold_left called (map as_call calls) b'))) by now apply X.
  clear calls. induction calls as [|c calls IH]; intros [s r l] b' P R L; cbn [pb_primary pb_recover pb_logs] in *; subst s r l; [reflexivity|].
  cbn [fold_left map]. apply IH; destruct c; reflexivity.
Qed.
Lemma python_calls order fuel hash pl w src calls recover bytes files :
  recovers (map as_call calls) recover -> NoDup (objects_in (src :: logs_named (map as_call calls))) ->
  stands_for patient pl w src bytes -> Forall2 (stands_for patient pl w) (logs_named (map as_call calls)) files ->
  fst (py_build order fuel hash pl (py_prepared src calls) w) = build order fuel hash recover false bytes files.
Proof.
  intros R D S L. rewrite py_prepared_as, (prepared_recover _ _ R), prepared_logs.
  exact (from_python order fuel hash pl w (mkPyBuilder src recover (logs_named (map as_call calls))) bytes files D S L).
Qed.
Lemma python_new order fuel hash pl w src bytes : stands_for patient pl w src bytes ->
  fst (py_new order fuel hash pl src w) = build order fuel hash false false bytes [].
Proof.
  intros S. refine (from_python order fuel hash pl w (mkPyBuilder src false []) bytes [] _ S (Forall2_nil _)).
  cbn [pb_primary pb_logs objects_in]. destruct src; cbn; repeat constructor; cbn; tauto.
Qed.
