(** That the comparison of DemoLog.v is one of the comparisons of AnalysisSpec.v,
    and a check that only live keys and values were shown before it. *)
From Verif Require Import Base BaseFacts Types Value Node Recover Parser TxLog TxSpec LiveSpec StoreSpec StoreFacts
  AnalysisSpec AnalysisFacts AnalysisStore AnalysisAll AnalysisReach Demo DemoCell DemoTree DemoLog.

Lemma compare_files_compares order fuel hash b new old before prior st after latest st' :
  compare_files order fuel hash b new = Some (old, before, prior, st, after, latest, st') ->
  compares order fuel false hash old before prior 2 (mkFI (fi_hbin old) new) st after latest st'.
Proof.
  unfold compare_files. destruct (build order fuel hash true false b []) as [p| | |] eqn:B; try discriminate.
  pose proof (build_reached _ _ _ _ _ _ _ _ B) as R.
  destruct (init_root p) as [p1| | |] eqn:I; try discriminate.
  destruct (iterate fuel p1 None false true false) as [bf| | |] eqn:A; try discriminate.
  destruct (ps_recover p) eqn:C; try discriminate.
  destruct (get_reg_items fuel p 0) as [[pr p2]| | |] eqn:G; try discriminate.
  destruct (init_root (ps_set_buffer new p)) as [q1| | |] eqn:I'; try discriminate.
  destruct (iterate fuel q1 None false false false) as [af| | |] eqn:A'; try discriminate.
  cbn [fst snd]. destruct (get_latest_reg_items order fuel (mkFI (ps_hbin p) (ps_buffer p ++ [])) 2 (ps_set_buffer new p) pr) as [[[lt p'] logs]| | |] eqn:G'; try discriminate.
  cbn [fst snd]. intros [= <- <- <- <- <- <- <-].
  assert (ST : ps_state (ps_set_buffer new p) = ps_state p) by now destruct p.
  rewrite <- ST. eapply (compares_entry order fuel false hash (ps_file p) (ps_hbin p) [] bf pr 2 (ps_set_buffer new p) q1 af lt p' logs); [|now rewrite ST| exact I'|exact A'|exact G'].
  exact (taken_first _ _ _ _ p p1 bf 0 pr p2 R C I A G).
Qed.

Definition is_live (s : cell_state) : bool := match s with Allocated => true | _ => false end.
Definition all_live (ks : list key_node) : bool :=
  forallb (fun k => is_live (kn_state k) && forallb (fun v => is_live (kv_state v)) (kn_values k) && negb (existsb (N.eqb 92) (kn_name k))) ks.
Lemma is_live_eq s : is_live s = true -> s = Allocated.
Proof. now destruct s. Qed.
Lemma all_live_at ks path : all_live ks = true -> live_at ks path /\ live_below ks path.
Proof.
  intros A. assert (E : forall k, In k ks -> kn_state k = Allocated /\ Forall (fun v => kv_state v = Allocated) (kn_values k) /\ ~ In 92 (kn_name k)).
  { intros k K. unfold all_live in A. rewrite forallb_forall in A. specialize (A k K).
    apply Bool.andb_true_iff in A as [A B]. apply Bool.andb_true_iff in A as [A C]. split; [now apply is_live_eq|split].
    - rewrite forallb_forall in C. apply Forall_forall. intros v V. now apply is_live_eq, C.
    - intros X. assert (Y : existsb (N.eqb 92) (kn_name k) = true) by (apply existsb_exists; exists 92; split; [exact X|reflexivity]). rewrite Y in B. discriminate B. }
  split; intros k K _; destruct (E k K) as (? & ? & ?); auto.
Qed.

Definition demo_facts (before after : list key_node) (st st' : state) : Prop :=
  all_live before = true
  /\ map kn_name (held beq [92; 82; 92; 65; 108; 112; 104; 97] (st_deleted_keys st')) = [[98; 195; 169; 116; 97]]
  /\ map (fun v => vd_bytes (kv_detail v)) (held pair_eqb ([92; 82], [120]) (st_modified_values st')) = [Some [1; 0; 0; 0]]
  /\ length (sightings after) = 5%nat /\ st_deleted_keys st = [].
Lemma demo_checked : match compare_files keep 20 whole dirty_hive demo_after with
  | Some (old, before, prior, st, after, latest, st') => demo_facts before after st st'
  | None => False
  end.
Proof. vm_compute. repeat split. Qed.
Lemma compared order fuel hash b new (F : list key_node -> list key_node -> state -> state -> Prop) :
  match compare_files order fuel hash b new with
  | Some (old, before, prior, st, after, latest, st') => F before after st st'
  | None => False
  end -> exists old before prior st after latest st', compares order fuel false hash old before prior 2 (mkFI (fi_hbin old) new) st after latest st' /\ F before after st st'.
Proof.
  destruct (compare_files order fuel hash b new) as [[[[[[[old before] prior] st] after] latest] st']|] eqn:D; [|contradiction].
  intros A. exists old, before, prior, st, after, latest, st'. split; [exact (compare_files_compares _ _ _ _ _ _ _ _ _ _ _ _ D)|exact A].
Qed.
