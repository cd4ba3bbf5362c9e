(** Lemmas about a run of the compare tool. *)
From Coq Require Import Permutation.
From Verif Require Import Base BaseFacts StoreFacts Types LayoutSpec BaseBlock CellSpec TreeSpec TxSpec TxLog Parser Node Log Export Compare CompareSpec
  CompareFacts CompareTree Folder FolderSpec FolderFacts Dump CompareRun CompareRunSpec.

Section Run.
Context (o : compare_outside) (n : nat) (c : compare_choices) (base comparison : folder).
Definition pair_result (e : path * list N) : option pair_outcome :=
  if is_reg_file (fst e) && file_has_size (snd e) then
    match read_file (fst e) comparison with
    | Some bytes => if file_has_size bytes then
        Some (compare_pair o n c (fst e) (snd e, or_none (get_log_files (cc_skip_logs c) base (fst e))) (bytes, or_none (get_log_files (cc_skip_logs c) comparison (fst e))))
        else None
    | None => None
    end
  else None.
Definition pair_job (e : path * list N) : option (list N * list N) :=
  match pair_result e with
  | Some (Reported out) => Some (get_outpath (fst e) (compare_extension c), out)
  | Some Failed => Some (get_outpath (fst e) (compare_extension c), [])
  | _ => None
  end.
Lemma compare_steps es : forall outs,
  (compare_files o n c base comparison es outs = Finished (fold_left (step pair_job) es outs)
     /\ forall e, In e es -> pair_result e <> Some PairAborted /\ pair_result e <> Some PairEndless)
  \/ (exists outs' e, compare_files o n c base comparison es outs = Stopped outs' /\ In e es /\ pair_result e = Some PairAborted)
  \/ (exists outs' e, compare_files o n c base comparison es outs = Hanging outs' /\ In e es /\ pair_result e = Some PairEndless).
Proof.
  induction es as [|e es IH]; intros outs. { left. split; [reflexivity|]. intros ? []. }
  assert (X : forall outs', pair_result e <> Some PairAborted -> pair_result e <> Some PairEndless -> step pair_job outs e = outs' ->
    (compare_files o n c base comparison es outs' = Finished (fold_left (step pair_job) (e :: es) outs)
     /\ forall e', In e' (e :: es) -> pair_result e' <> Some PairAborted /\ pair_result e' <> Some PairEndless)
    \/ (exists outs2 e', compare_files o n c base comparison es outs' = Stopped outs2 /\ In e' (e :: es) /\ pair_result e' = Some PairAborted)
    \/ (exists outs2 e', compare_files o n c base comparison es outs' = Hanging outs2 /\ In e' (e :: es) /\ pair_result e' = Some PairEndless)).
  { intros outs' A B <-. destruct (IH (step pair_job outs e)) as [(E & H)|[(o' & e' & E & I & R)|(o' & e' & E & I & R)]].
    - left. split; [exact E|]. intros e' [<-|I]; [now split|now apply H].
    - right. left. exists o', e'. split; [exact E|]. split; [now right|exact R].
    - right. right. exists o', e'. split; [exact E|]. split; [now right|exact R]. }
  cbn [compare_files]. revert X. unfold step at 1. unfold pair_job at 1. unfold pair_result at 1 2 3.
  destruct (is_reg_file (fst e) && file_has_size (snd e)) eqn:H; [|intros X; apply X; [discriminate..|reflexivity]].
  destruct (read_file (fst e) comparison) as [bytes|] eqn:R; [|intros X; apply X; [discriminate..|reflexivity]].
  destruct (file_has_size bytes) eqn:Z; [|intros X; apply X; [discriminate..|reflexivity]]. cbv zeta.
  fold (or_none (get_log_files (cc_skip_logs c) base (fst e))). fold (or_none (get_log_files (cc_skip_logs c) comparison (fst e))).
  assert (PR : pair_result e = Some (compare_pair o n c (fst e) (snd e, or_none (get_log_files (cc_skip_logs c) base (fst e))) (bytes, or_none (get_log_files (cc_skip_logs c) comparison (fst e))))).
  { unfold pair_result. now rewrite H, R, Z. }
  destruct (compare_pair o n c (fst e) _ _) as [out| | |]; intros X; [apply X; [discriminate..|reflexivity]|apply X; [discriminate..|reflexivity]| |].
  - right. left. exists outs, e. split; [reflexivity|]. split; [now left|exact PR].
  - right. right. exists outs, e. split; [reflexivity|]. split; [now left|exact PR].
Qed.
Context (ND : NoDup (map fst base)) (ND' : NoDup (map fst comparison)).
Lemma logs_only f p b l : NoDup (map fst f) -> hive_file p b -> used_logs (cc_skip_logs c) f p l -> or_none (get_log_files (cc_skip_logs c) f p) = l.
Proof.
  intros NF H V. pose proof (used_or_none (cc_skip_logs c) f p b H) as V'. destruct (cc_skip_logs c); cbn [used_logs] in *; [congruence|]. exact (logs_one f p _ _ NF V' V).
Qed.
Lemma pair_of p x y : paired (cc_skip_logs c) base comparison p x y -> pair_result (p, fst x) = Some (compare_pair o n c p x y).
Proof.
  intros (I & H & U & I' & Z & U'). unfold pair_result. cbn [fst snd].
  rewrite (proj2 (hive_iff p (fst x)) H), (read_one comparison p (fst y) ND' I'), (proj2 (size_iff (fst y)) Z), (logs_only base p _ _ ND H U), (logs_only comparison p _ _ ND' H U').
  now rewrite <- !surjective_pairing.
Qed.
Lemma of_pair e r : In e base -> pair_result e = Some r -> exists x y, paired (cc_skip_logs c) base comparison (fst e) x y /\ snd e = fst x /\ compare_pair o n c (fst e) x y = r.
Proof.
  intros I. unfold pair_result. destruct (is_reg_file (fst e) && file_has_size (snd e)) eqn:H; [|discriminate]. apply hive_iff in H.
  destruct (read_file (fst e) comparison) as [b'|] eqn:R; [|discriminate]. destruct (file_has_size b') eqn:Z; [|discriminate]. intros [= <-].
  eexists (_, _), (_, _). split; [|split; [|reflexivity]]; [|reflexivity]. split; [cbn [fst]; now rewrite <- surjective_pairing|]. split; [exact H|].
  split; [exact (used_or_none _ _ _ _ H)|]. split; [now apply (aget_in path_eqb path_eqb_eq)|]. split; [now apply size_iff|exact (used_or_none _ _ _ _ H)].
Qed.
Context (PF : plain_folder base).
Lemma compare_outputs outs final : compare_folders o n c base comparison outs = Finished final ->
  (forall p x y, paired (cc_skip_logs c) base comparison p x y -> exists name, named_after p (compare_extension c) name
     /\ match compare_pair o n c p x y with
        | Reported out => output final name = Some out
        | Failed => output final name = Some []
        | PairAborted | PairEndless => False
        end)
  /\ (forall name, output final name <> output outs name -> exists p x y, paired (cc_skip_logs c) base comparison p x y /\ named_after p (compare_extension c) name).
Proof.
  unfold compare_folders. intros E. destruct (compare_steps base outs) as [(E1 & H)|[(o' & e' & E1 & _)|(o' & e' & E1 & _)]]; rewrite E1 in E; try discriminate E.
  injection E as <-. pose proof PF as (_ & PD & SN).
  assert (JB : forall e nm out, In e base -> pair_job e = Some (nm, out) -> hive_file (fst e) (snd e) /\ named_after (fst e) (compare_extension c) nm
    /\ exists x y, paired (cc_skip_logs c) base comparison (fst e) x y).
  { intros [p b] nm out I J. unfold pair_job in J. destruct (pair_result (p, b)) as [r|] eqn:R; [|discriminate J].
    destruct (of_pair _ _ I R) as (x & y & P & B & _). cbn [fst snd] in *. subst b. pose proof P as (_ & HF & _).
    assert (NM : nm = get_outpath p (compare_extension c)) by (destruct r; try discriminate J; now injection J as <- _). subst nm.
    split; [exact HF|]. split; [apply (out_named p (fst x)); [exact HF|now apply (PD p (fst x))]|]. now exists x, y. }
  split.
  - intros p x y P. pose proof (pair_of p x y P) as R. pose proof P as (I & HF & _). exists (get_outpath p (compare_extension c)).
    pose proof (out_named p (fst x) (compare_extension c) HF (PD p (fst x) I HF)) as NM. split; [exact NM|].
    assert (X : forall out, pair_job (p, fst x) = Some (get_outpath p (compare_extension c), out) ->
      output (fold_left (step pair_job) base outs) (get_outpath p (compare_extension c)) = Some out).
    { intros out J. apply (writes_own _ base outs (p, fst x)); [exact I|exact J|]. intros [q b] out' Iq Jq. destruct (JB _ _ _ Iq Jq) as (H' & N' & _). cbn [fst snd] in *.
      assert (q = p) by (eapply names_differ; eassumption). subst q. apply (read_one base p b ND) in Iq. pose proof (read_one base p (fst x) ND I). assert (b = fst x) by congruence. subst b. congruence. }
    unfold pair_job in X. rewrite R in X. destruct (H _ I) as (H1 & H2). rewrite R in H1, H2. destruct (compare_pair o n c p x y); [now apply X|now apply X|now elim H1|now elim H2].
  - intros nm X. apply writes_only in X as ([p b] & out & I & J). destruct (JB _ _ _ I J) as (HF & NM & x & y & P). now exists p, x, y.
Qed.
Lemma compare_ended outs : (forall p x y, paired (cc_skip_logs c) base comparison p x y -> compare_pair o n c p x y <> PairAborted /\ compare_pair o n c p x y <> PairEndless) ->
  exists final, compare_folders o n c base comparison outs = Finished final.
Proof.
  intros H. unfold compare_folders. destruct (compare_steps base outs) as [(E1 & _)|[(o' & e' & E1 & I & R)|(o' & e' & E1 & I & R)]]; [eauto|exfalso..];
    destruct (of_pair _ _ I R) as (x & y & P & _ & C); destruct (H _ x y P) as (H1 & H2); congruence.
Qed.
End Run.

(** ** One pair *)
Lemma filter_below c q : compare_filter c = Some q -> below_root q.
Proof.
  unfold compare_filter. destruct (cc_filter c) as [f|]; [|discriminate]. intros [= <-]. unfold below_root. cbn [with_children add_key_path empty_query rq_has_root rq_path app].
  unfold len. rewrite map_length. assert (X : forall s, split_bs s <> []).
  { intros [|b s]; [discriminate|]. cbn [split_bs]. destruct (b =? BS); [discriminate|]. destruct (split_bs s); discriminate. }
  specialize (X (trim_end_bs f)). destruct (split_bs _); [now elim X|]. cbn [List.length]. lia.
Qed.
Lemma pair_compared o n c p x y t1 t2 : (forall m, Permutation (co_map_order o m) m) -> opens_as o n x t1 -> opens_as o n y t2 ->
  exists q1 q2 ks1 ks2 g, build (co_order o) n (co_hash o) false false (fst x) (snd x) = Ok q1 /\ build (co_order o) n (co_hash o) false false (fst y) (snd y) = Ok q2
  /\ shown ks1 (listed (compare_filter c) t1) /\ shown ks2 (listed (compare_filter c) t2) /\ originals t1 g
  /\ (no_collision (co_hash o) ks1 ks2 -> compared ks1 ks2 g)
  /\ compare_pair o n c p x y = Reported ((if cc_diff c then write_diff else write_text) (co_render o) (co_shown o true p) (co_shown o false p) g).
Proof.
  intros PO (q1 & E1 & H1 & L1) (q2 & E2 & H2 & L2).
  destruct (hives_compared (co_map_order o) n (co_hash o) t1 t2 q1 q2 (compare_filter c) H1 H2 (filter_below c) L1 L2 PO) as (ks1 & ks2 & g & I1 & I2 & S1 & S2 & G & O & C).
  exists q1, q2, ks1, ks2, g. repeat (split; [assumption|]). unfold compare_pair, compare_parser. rewrite E1. cbv beta iota. rewrite I1. cbv beta iota. rewrite E2. cbv beta iota. now rewrite G.
Qed.
Lemma pair_ends o n c p x y : (forall m, Permutation (co_map_order o m) m) -> comparable o n x y ->
  compare_pair o n c p x y <> PairAborted /\ compare_pair o n c p x y <> PairEndless.
Proof.
  unfold comparable, cannot_open. intros PO [E|((t1 & H1) & H2)]. { unfold compare_pair, compare_parser. rewrite E. now split. }
  destruct H2 as [E2|(t2 & H2)].
  - destruct H1 as (q1 & E1 & H1 & L1). destruct (hive_listed _ _ _ (compare_filter c) n H1 (filter_below c) L1) as (ks1 & I1 & _).
    unfold compare_pair, compare_parser. rewrite E1. cbv beta iota. rewrite I1. cbv beta iota. rewrite E2. now split.
  - destruct (pair_compared o n c p x y t1 t2 PO H1 H2) as (q1 & q2 & ks1 & ks2 & g & _ & _ & _ & _ & _ & _ & ->). now split.
Qed.
