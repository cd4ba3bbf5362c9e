(** The property that no file and no history of calls aborts the program:
    statements only, with a concrete case beside each. The specification is
    AbortSpec.v. *)
From Verif Require Import Base BaseFacts Util UtilSpec LayoutSpec LayoutFacts BaseBlock Types Value Node Recover Parser TxLog TxSpec
  CellSpec CellList AbortSpec NoAbort HandSpec HandFacts Demo DemoCell DemoTree DemoScan DemoLog DemoExport DemoFree BuildBytes.

(** ** C64 *)
(** Opening: any bytes as the hive, any files as its logs, every option. *)
Theorem C64_opening : forall order fuel hash recover full buffer files,
  (forall f pos, In f files -> ~ short_entry f pos) ->
  no_abort (build order fuel hash recover full buffer files).
Proof.
  intros order fuel hash recover full buffer files H. apply build_safe. intros f I P. destruct (log_panic f P) as (pos & S). exact (H f pos I S).
Qed.
Print Assumptions C64_opening.
(** The condition is needed: C15_short_entry_refuted in PropsTx.v. *)
Fixpoint no_short (f : list N) : bool :=
  match f with
  | [] => true
  | _ :: f' => negb (beq (firstn 4 f) [72; 118; 76; 69] && (num_at f 4 4 <? 40)) && no_short f'
  end.
Lemma no_short_ok f : no_short f = true -> forall pos, ~ short_entry f pos.
Proof.
  assert (X : forall n f, no_short f = true -> len (skipn n f) = 0 \/ beq (firstn 4 (skipn n f)) [72; 118; 76; 69] && (num_at (skipn n f) 4 4 <? 40) = false).
  { induction n as [|n IH]; intros [|c g] H; [now left| |now left|].
    - apply andb_true_iff in H as (H & _). right. now apply negb_true_iff in H.
    - apply andb_true_iff in H as (_ & H). exact (IH g H). }
  intros H pos (L & T & S). destruct (X (N.to_nat pos) f H) as [Z|Z].
  - unfold len in *. rewrite skipn_length in Z. lia.
  - apply andb_false_iff in Z as [Z|Z].
    + unfold bytes_at in T. change (N.to_nat 4) with 4%nat in T. rewrite T in Z. vm_compute in Z. discriminate.
    + apply N.ltb_ge in Z. change (skipn (N.to_nat pos) f) with (rest_at f pos) in Z. rewrite num_at_rest in Z. lia.
Qed.
Example C64_opening_example : forall f pos, In f (touches 2) -> ~ short_entry f pos.
Proof.
  intros f pos J. apply no_short_ok. revert f J. apply forallb_forall. vm_compute. reflexivity.
Qed.

(** Iterating and looking up a key in a file just opened: every filter and every
    option, any path. *)
Theorem C64_first_call : forall order fuel hash recover full buffer files p,
  bytes_ok buffer -> Forall bytes_ok files -> build order fuel hash recover full buffer files = Ok p ->
  (forall n f anc m post, no_abort (iterate n p f anc m post))
  /\ (forall n path has_root, no_abort (get_key n p path has_root)).
Proof.
  intros order fuel hash recover full buffer files p BB BF E. pose proof (build_bytes _ _ _ _ _ _ _ _ BB BF E) as B. pose proof (build_opened _ _ _ _ _ _ _ _ E) as O.
  split; intros; [now apply fresh_iterate|now apply fresh_get_key].
Qed.
Print Assumptions C64_first_call.

(** The calls that use no filter, on any parser and any key at all. *)
Theorem C64_calls_without_a_filter : forall p k,
  no_abort (get_root_key p) /\ no_abort (get_parent_key p k)
  /\ no_abort (read_sub_keys (ps_file p) (ps_state p) k)
  /\ (forall i, no_abort (get_sub_key_by_index (ps_file p) (ps_state p) k i))
  /\ no_abort (next_sub_key (ps_file p) (ps_state p) k)
  /\ (forall n anc m, no_abort (iterate n p None anc m false)).
Proof.
  intros p k. split; [apply root_key_safe|]. split; [apply parent_safe|]. split; [apply all_sub_keys_safe|].
  split; [intros i; apply by_index_safe|]. split; [apply next_sub_safe|]. intros n anc m. apply iterate_safe.
Qed.
Print Assumptions C64_calls_without_a_filter.

(** Any history of calls, in a hive whose header gives the first cell as its
    root. *)
Theorem C64_any_history : forall order fuel hash recover full buffer files p q,
  bytes_ok buffer -> Forall bytes_ok files -> build order fuel hash recover full buffer files = Ok p ->
  num_at (ps_buffer p) 36 4 = 32 -> asked p q ->
  (forall n f anc m post, no_abort (iterate n q f anc m post))
  /\ (forall n path has_root, no_abort (get_key n q path has_root)).
Proof.
  intros order fuel hash recover full buffer files p q BB BF E R A. pose proof (build_bytes _ _ _ _ _ _ _ _ BB BF E) as B. pose proof (build_opened _ _ _ _ _ _ _ _ E) as O.
  pose proof (asked_here p q O B R A) as H. split; intros; [now apply (here_iterate p)|now apply (here_get_key p)].
Qed.
Print Assumptions C64_any_history.
(** The root of the header is another key than the first cell, with a longer
    name: a look-up, and the next iteration with a filter aborts. *)
Definition two_roots_hive : list N :=
  header 1 1 120 4096 ++ hbin_head 0 4096
  ++ nk_bytes (tree_nk 0x2C 1 384 0 (-1)%Z 1 7) n_root ++ nk_bytes d_alpha n_alpha       (* at 32 and 120 *)
  ++ nk_bytes d_beta n_beta                                                             (* at 208, below Alpha *)
  ++ nk_bytes (tree_nk_in 32%Z 0x20 0 (2 ^ 32 - 1) 0 (-1)%Z 1 7) n_root                  (* at 296, below R *)
  ++ cell (list_content [108; 102] [296]) ++ cell [] ++ cell (list_content [108; 104] [208]) (* at 384, 400 and 408 *)
  ++ enc 4 3000 ++ repeat 0 2996.
Theorem C64_other_root_refuted : exists buffer p q path q2,
  bytes_ok buffer /\ build keep 0 no_hash false false buffer [] = Ok p
  /\ asked p q2 /\ iterate 10 q2 (Some q) false true false = Panic /\ get_key 5 p path false = Ok (None, q2).
Proof.
  exists two_roots_hive.
  assert (X : exists p, build keep 0 no_hash false false two_roots_hive [] = Ok p
    /\ exists q2, get_key 5 p n_gamma false = Ok (None, q2) /\ iterate 10 q2 (Some (add_key_path empty_query n_root)) false true false = Panic).
  { refine (checked _ (fun p => match get_key 5 p n_gamma false with
      | Ok (None, q2) => match iterate 10 q2 (Some (add_key_path empty_query n_root)) false true false with Panic => true | _ => false end | _ => false end) _ _ _); [|vm_compute; reflexivity].
    intros p H. destruct (get_key 5 p n_gamma false) as [[[k|] q2]| | |]; try discriminate H. exists q2. split; [reflexivity|].
    destruct (iterate 10 q2 _ false true false); try discriminate H. reflexivity. }
  destruct X as (p & E & q2 & G & I). exists p, (add_key_path empty_query n_root), n_gamma, q2.
  split; [apply bytes_check; vm_compute; reflexivity|]. split; [exact E|]. split; [|split; [exact I|exact G]]. eapply asked_key; [apply asked_not|exact G].
Qed.
Print Assumptions C64_other_root_refuted.
Example C64_history_example : bytes_ok (free_hive 0x20) /\ Forall bytes_ok (touches 2) /\ exists p q k, build keep 20 whole true false (free_hive 0x20) (touches 2) = Ok p
  /\ num_at (ps_buffer p) 36 4 = 32 /\ get_root_key p = Ok (Some k, q) /\ asked p q.
Proof.
  split; [apply bytes_check; vm_compute; reflexivity|]. split; [apply files_check; vm_compute; reflexivity|].
  assert (X : exists p, build keep 20 whole true false (free_hive 0x20) (touches 2) = Ok p /\ num_at (ps_buffer p) 36 4 = 32
    /\ exists k q, get_root_key p = Ok (Some k, q)).
  { refine (checked _ (fun p => (num_at (ps_buffer p) 36 4 =? 32)
      && match get_root_key p with Ok (Some k, q) => true | _ => false end) _ _ _); [|vm_compute; reflexivity].
    intros p H. apply andb_true_iff in H as (R & G). split; [now apply N.eqb_eq|].
    destruct (get_root_key p) as [[[k|] q]| | |]; try discriminate G. now exists k, q. }
  destruct X as (p & E & R & k & q & G). exists p, q, k. repeat (split; [assumption|]). eapply asked_root; [apply asked_not|exact G].
Qed.

(** The calls on keys themselves, after any history of calls on any of the keys found
    by going down from the root: the look-up by path on each of them, and the look-up of
    a sub key by its name on each but the root, where it can abort
    (C53_by_name_on_root_refuted in PropsNav.v); and the calls of the parser. *)
Theorem C64_in_hand : forall order fuel hash recover full buffer files p q ks,
  bytes_ok buffer -> Forall bytes_ok files -> build order fuel hash recover full buffer files = Ok p ->
  num_at (ps_buffer p) 36 4 = 32 -> in_hand p q ks ->
  (forall n f anc m post, no_abort (iterate n q f anc m post)) /\ (forall n path has_root, no_abort (get_key n q path has_root))
  /\ forall k, In k ks -> (forall n path, no_abort (get_sub_key_by_path n (ps_file q) (ps_state q) k path))
     /\ forall r q', get_root_key q = Ok (Some r, q') -> kn_path k <> kn_path r -> forall name, no_abort (get_sub_key q k name).
Proof.
  intros order fuel hash recover full buffer files p q ks BB BF E R H. exact (hand_safe p (build_opened _ _ _ _ _ _ _ _ E) (build_bytes _ _ _ _ _ _ _ _ BB BF E) R q ks H).
Qed.
Print Assumptions C64_in_hand.
(** In the demonstration hive: the root, its first sub key, one below that by name. *)
Example C64_in_hand_example : bytes_ok demo_hive /\ exists p, build keep 0 no_hash false false demo_hive [] = Ok p /\ num_at (ps_buffer p) 36 4 = 32
  /\ exists q ks k r q', in_hand p q ks /\ In k ks /\ get_root_key q = Ok (Some r, q') /\ kn_path k <> kn_path r /\ (3 < List.length ks)%nat.
Proof.
  split; [apply bytes_check; vm_compute; reflexivity|].
  refine (checked _ (fun p => (num_at (ps_buffer p) 36 4 =? 32) && match get_root_key p with
    | Ok (Some r, p1) => match next_sub_key (ps_file p1) (ps_state p1) r with
        | Ok (r', Some a, st) => match get_sub_key (ps_set_state st p1) a (utf8 n_beta) with
            | Ok (Some b, p2) => negb (beq (kn_path b) (kn_path r)) && match get_root_key p2 with Ok (Some r2, _) => beq (kn_path r2) (kn_path r) | _ => false end
            | _ => false end
        | _ => false end
    | _ => false end) _ _ _); [|vm_compute; reflexivity].
  intros p H. apply andb_true_iff in H as (R & H). split; [now apply N.eqb_eq|].
  destruct (get_root_key p) as [[[r|] p1]| | |] eqn:E1; try discriminate H.
  destruct (next_sub_key (ps_file p1) (ps_state p1) r) as [[[r' [a|]] st]| | |] eqn:E2; try discriminate H.
  destruct (get_sub_key (ps_set_state st p1) a (utf8 n_beta)) as [[[b|] p2]| | |] eqn:E3; try discriminate H.
  apply andb_true_iff in H as (NE & H). destruct (get_root_key p2) as [[[r2|] p3]| | |] eqn:E4; try discriminate H.
  pose proof (hand_root p _ _ _ _ (hand_start p) E1) as H1. pose proof (hand_next p _ _ _ _ _ _ H1 (or_introl eq_refl) E2) as H2.
  assert (I : In a (r' :: got (Some a) ++ got (Some r) ++ [])) by (right; now left). pose proof (hand_by_name p _ _ _ _ _ _ H2 I E3) as H3.
  exists p2, (got (Some b) ++ r' :: got (Some a) ++ got (Some r) ++ []), b, r2, p3. split; [exact H3|]. split; [now left|]. split; [exact E4|]. split; [|cbn; lia].
  apply beq_eq in H. rewrite H. intros X. rewrite X, (proj2 (beq_eq _ _) eq_refl) in NE. discriminate NE.
Qed.
(** Why parents are not gone down from: the root of a hive may name another key as its
    parent; a look-up below that, and the next iteration with a filter aborts. *)
Definition odd_parent_hive : list N :=
  header 1 1 32 4096 ++ hbin_head 0 4096
  ++ nk_bytes (tree_nk_in 120%Z 0x2C 1 384 0 (-1)%Z 1 7) n_root ++ nk_bytes d_alpha n_alpha (* at 32 and 120 *)
  ++ nk_bytes d_beta n_beta                                                             (* at 208, below Alpha *)
  ++ nk_bytes (tree_nk_in 32%Z 0x20 0 (2 ^ 32 - 1) 0 (-1)%Z 1 7) n_root                  (* at 296, below R *)
  ++ cell (list_content [108; 102] [296]) ++ cell [] ++ cell (list_content [108; 104] [208]) (* at 384, 400 and 408 *)
  ++ enc 4 3000 ++ repeat 0 2996.
Theorem C64_odd_parent_refuted : exists buffer p, bytes_ok buffer /\ build keep 0 no_hash false false buffer [] = Ok p /\ num_at (ps_buffer p) 36 4 = 32
  /\ exists r q k q' o st f, get_root_key p = Ok (Some r, q) /\ get_parent_key q r = Ok (Some k, q')
     /\ get_sub_key_by_path 5 (ps_file q') (ps_state q') k n_gamma = Ok (o, st) /\ iterate 10 (ps_set_state st q') f false true false = Panic.
Proof.
  exists odd_parent_hive.
  assert (X : exists p, build keep 0 no_hash false false odd_parent_hive [] = Ok p /\ num_at (ps_buffer p) 36 4 = 32
    /\ exists r q k q' o st, get_root_key p = Ok (Some r, q) /\ get_parent_key q r = Ok (Some k, q')
     /\ get_sub_key_by_path 5 (ps_file q') (ps_state q') k n_gamma = Ok (o, st) /\ iterate 10 (ps_set_state st q') (Some (add_key_path empty_query n_root)) false true false = Panic).
  { refine (checked _ (fun p => (num_at (ps_buffer p) 36 4 =? 32) && match get_root_key p with
      | Ok (Some r, q) => match get_parent_key q r with
          | Ok (Some k, q') => match get_sub_key_by_path 5 (ps_file q') (ps_state q') k n_gamma with
              | Ok (o, st) => match iterate 10 (ps_set_state st q') (Some (add_key_path empty_query n_root)) false true false with Panic => true | _ => false end
              | _ => false end
          | _ => false end
      | _ => false end) _ _ _); [|vm_compute; reflexivity].
    intros p H. apply andb_true_iff in H as (R & H). split; [now apply N.eqb_eq|].
    destruct (get_root_key p) as [[[r|] q]| | |] eqn:E1; try discriminate H. destruct (get_parent_key q r) as [[[k|] q']| | |] eqn:E2; try discriminate H.
    destruct (get_sub_key_by_path 5 (ps_file q') (ps_state q') k n_gamma) as [[o st]| | |] eqn:E3; try discriminate H.
    exists r, q, k, q', o, st. split; [reflexivity|]. split; [exact E2|]. split; [exact E3|].
    destruct (iterate 10 _ _ false true false); try discriminate H. reflexivity. }
  destruct X as (p & E & R & r & q & k & q' & o & st & A & B & C & D). exists p. split; [apply bytes_check; vm_compute; reflexivity|]. split; [exact E|]. split; [exact R|].
  exists r, q, k, q', o, st, (Some (add_key_path empty_query n_root)). split; [exact A|]. split; [exact B|]. split; [exact C|exact D].
Qed.
Print Assumptions C64_odd_parent_refuted.
