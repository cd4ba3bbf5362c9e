(** Proofs about what opening a hive leaves in the parser. *)
From Verif Require Import Base BaseFacts LayoutSpec LayoutFacts Util UtilSpec UtilText BaseBlock Marvin
  HeaderFacts Types Value Node Recover Parser TxLog TxSpec TxParse TxApply NodeFrame TxBuild
  CellSpec CellFacts CellData CellList CellRead TreeSpec TreeRead TreeIter.

(** ** Reading without a filter leaves the state *)
Lemma read_plain_state fi st o k st' : op_filter o = None -> kn_read fi st o = Ok (k, st') -> st' = st.
Proof.
  intros NF. unfold kn_read. destruct (get_from _ _); cbn [ok_or]; [|discriminate]. unfold read_from_slice.
  destruct (kn_from_bytes _ _ _ _ _) as [[n r]| | |]; try discriminate. cbv beta iota. rewrite NF. cbv beta iota.
  destruct (if _ && _ then _ else _) as [n1| | |]; try discriminate; cbv beta iota;
    destruct (if op_modified o then _ else _); try discriminate; now intros [= _ <-].
Qed.
Lemma init_root_ok p p' : init_root p = Ok p' -> exists h root, 
  p' = ps_set_root root (ps_set_hbin h p)
  /\ ps_hbin p + 32 <= len (ps_buffer p)
  /\ kn_read (ps_file p) (ps_state p) (mkOpt (ps_hbin p + 32) [] None true None true) = Ok (root, ps_state p).
Proof.
  unfold init_root. destruct (get_from (ps_buffer p) (ps_hbin p)) as [input|] eqn:G; [|discriminate].
  cbn [ok_or]. cbv beta iota. destruct (hbin_cases (ps_hbin p) input) as [(L & T & E)|(_ & E)]; rewrite E; [|discriminate].
  cbv beta iota. apply get_from_some in G as (G1 & G2 & G3 & G4).
  assert (LI : len input = len (ps_buffer p) - ps_hbin p) by lia.
  replace (len (ps_buffer (ps_set_hbin (hbin_at (ps_hbin p) input) p)) - len (rest_at input 32)) with (ps_hbin p + 32).
  2:{ rewrite len_rest_at. change (ps_buffer (ps_set_hbin (hbin_at (ps_hbin p) input) p)) with (ps_buffer p). lia. }
  change (ps_file (ps_set_hbin (hbin_at (ps_hbin p) input) p)) with (ps_file p).
  change (ps_state (ps_set_hbin (hbin_at (ps_hbin p) input) p)) with (ps_state p).
  destruct (kn_read _ _ _) as [[root st]| | |] eqn:R; try discriminate. intros [= <-].
  pose proof (read_plain_state _ _ (mkOpt (ps_hbin p + 32) [] None true None true) _ _ eq_refl R) as ->.
  exists (hbin_at (ps_hbin p) input), root. split; [reflexivity|]. split; [lia|]. reflexivity.
Qed.

(** ** Opening without recovery *)
Definition plain (hash : list N -> N) (full : bool) (p : parser) : Prop :=
  ps_recover p = false /\ set_info [] (ps_state p) = mkState 0 full [] hash [] [] [] [].
Definition headed (p : parser) : Prop :=
  ps_hbin p = 4096 /\ 4096 <= len (ps_buffer p)
  /\ exists name, ps_base_block p = Some (base_block_at (ps_buffer p) name).
Lemma init_base_ok p s b p' : init_base_block p = Ok (s, b, p') ->
  headed p' /\ ps_buffer p' = ps_buffer p /\ ps_recover p' = ps_recover p
  /\ set_info [] (ps_state p') = set_info [] (ps_state p)
  /\ (known_file_type (ps_buffer p) <-> s = true).
Proof.
  intros E. destruct (N.leb_spec 4096 (len (ps_buffer p))) as [L|L].
  2:{ rewrite init_fails in E by lia. discriminate. }
  destruct (list_eq_dec N.eq_dec (bytes_at (ps_buffer p) 0 4) REGF) as [T|T].
  2:{ rewrite init_fails in E; [discriminate|]. now intros [_ ?]. }
  destruct (init_base_block_spec p L T) as (name & bad & p1 & _ & E2 & F1 & B1 & R1 & _ & _ & I1 & _).
  rewrite E2 in E. injection E as <- <- <-.
  assert (PB : ps_buffer p1 = ps_buffer p) by (unfold ps_buffer at 1; now rewrite F1).
  split; [split; [unfold ps_hbin; now rewrite F1|split; [now rewrite PB|]]|].
  { exists name. now rewrite PB. }
  split; [exact PB|]. split; [exact R1|]. split; [exact I1|]. symmetry. apply supported_at.
Qed.
Lemma plain_log hash full c p : plain hash full p -> plain hash full (ps_log c p).
Proof. intros H; exact H. Qed.
Lemma update_entries_plain order fuel sec hbins hash full es : forall n p items r,
  update_entries order fuel sec hbins es n p items = Ok r -> plain hash full p -> plain hash full (snd r).
Proof.
  induction es as [|e es IH]; intros n p items r E P; cbn [update_entries] in E.
  { injection E as <-. exact P. }
  destruct (le_valid_hashes e); [|injection E as <-; exact P].
  destruct (_ <? _); [eapply IH; [exact E|exact P]|].
  destruct (negb _); [injection E as <-; exact P|].
  destruct (_ && _); [injection E as <-; exact P|].
  destruct (apply_pages _ _ _) as [b| | |]; try discriminate. cbv beta iota zeta in E.
  rewrite analyze_off in E; [|apply P]. cbv beta iota in E. eapply IH; [exact E|exact P].
Qed.
Lemma apply_logs_plain order fuel sec hash full logs : forall n p items r,
  apply_logs order fuel sec logs n p items = Ok r -> plain hash full p -> plain hash full (snd r).
Proof.
  induction logs as [|l logs IH]; intros n p items r E P; cbn [apply_logs] in E.
  { injection E as <-. exact P. }
  destruct (_ <=? _); [|eapply IH; [exact E|exact P]].
  destruct (_ || _); [|eapply IH; [exact E|exact P]].
  destruct (update_parser order fuel l p items) as [[[m i] q]| | |] eqn:U; try discriminate. cbv beta iota in E.
  eapply IH; [exact E|]. unfold update_parser in U. destruct (base_block_info p) as [[s h]| | |]; try discriminate.
  cbv beta iota in U. exact (update_entries_plain _ _ _ _ _ _ _ _ _ _ _ U P).
Qed.
Lemma plain_of hash full p q : plain hash full p -> ps_recover q = ps_recover p ->
  set_info [] (ps_state q) = set_info [] (ps_state p) -> plain hash full q.
Proof. intros [A B] C D. split; congruence. Qed.
Lemma update_header_plain hash full n p p' : update_header n p = Ok p' -> plain hash full p -> plain hash full p' /\ headed p'.
Proof.
  unfold update_header. intros E P.
  destruct (overwrite _ _ _); [|discriminate]. cbn [or_panic] in E. cbv beta iota in E.
  destruct (overwrite _ _ _); [|discriminate]. cbn [or_panic] in E. cbv beta iota in E.
  match type of E with context [get_range ?a ?b ?c] => destruct (get_range a b c) end; try discriminate. cbn [or_panic] in E. cbv beta iota in E.
  destruct (calculate_checksum _); try discriminate. cbv beta iota in E.
  destruct (overwrite _ _ _); [|discriminate]. cbn [or_panic] in E. cbv beta iota in E.
  destruct (init_base_block _) as [[[s b] q]| | |] eqn:I; try discriminate. injection E as <-.
  apply init_base_ok in I as (H & _ & R & S & _). split; [|exact H]. apply plain_log. exact (plain_of _ _ _ _ P R S).
Qed.
Lemma build_plain order fuel hash full buffer files p : known_file_type buffer ->
  build order fuel hash false full buffer files = Ok p ->
  plain hash full p /\ headed p
  /\ exists st, set_info [] st = set_info [] (ps_state p)
     /\ kn_read (ps_file p) st (mkOpt 4128 [] None true None true) = Ok (ps_root p, st).
Proof.
  intros K. unfold build. destruct (parse_logs files) as [[logs w]| | |]; try discriminate. cbv beta iota zeta.
  fold (start hash false full buffer). unfold ps_init.
  destruct (init_base_block (start hash false full buffer)) as [[[s bad] p1]| | |] eqn:I; try discriminate.
  apply init_base_ok in I as (H1 & B1 & R1 & S1 & T1). change (ps_buffer (start hash false full buffer)) with buffer in *.
  apply T1 in K. subst s. cbv beta iota.
  assert (P1 : plain hash full p1) by (split; [exact R1|exact S1]).
  destruct (apply_transaction_logs order fuel bad logs p1) as [p2| | |] eqn:A; try discriminate. cbv beta iota.
  assert (X : plain hash full p2 /\ headed p2).
  { unfold apply_transaction_logs in A. destruct logs as [|l0 logs]; [injection A as <-; now split|].
    destruct (prepare_logs bad p1 (l0 :: logs)) as [[[go p3] ls]| | |] eqn:PR; try discriminate. cbv beta iota in A.
    assert (Y : plain hash full p3 /\ headed p3).
    { unfold prepare_logs in PR.
      assert (Z : forall x, (if bad then handle_bad_checksum p1 (l0 :: logs) else Ok (p1, l0 :: logs)) = Ok x ->
                  plain hash full (fst x) /\ headed (fst x)).
      { intros x. destruct bad; [|intros [= <-]; now split]. unfold handle_bad_checksum.
        destruct (last _ _); [|discriminate]. cbn [or_panic]. cbv beta iota.
        match goal with |- context [get_range ?a ?b ?c] => destruct (get_range a b c) end; [|discriminate]. cbn [ok_or]. cbv beta iota.
        destruct (overwrite _ _ _); [|discriminate]. cbn [or_panic]. cbv beta iota zeta.
        destruct (init_base_block _) as [[[s b] q]| | |] eqn:I2; try discriminate. intros [= <-].
        apply init_base_ok in I2 as (H & _ & R & S & _). split; [|exact H]. cbn [fst]. exact (plain_of _ _ _ _ P1 R S). }
      destruct (if bad then _ else _) as [[p4 l4]| | |]; try discriminate. specialize (Z _ eq_refl). cbn [fst] in Z.
      cbv beta iota in PR. destruct (ps_base_block p4); [|discriminate]. cbn [or_panic] in PR. cbv beta iota in PR.
      destruct (_ =? _); injection PR as _ <- _; exact Z. }
    destruct go; [|injection A as <-; exact Y]. unfold get_reg_items in A. rewrite (proj1 (proj1 Y)) in A. cbv beta iota in A.
    destruct (base_block_info p3) as [[sec h]| | |]; try discriminate. cbv beta iota in A.
    destruct (apply_logs order fuel sec ls 0 p3 []) as [[n q]| | |] eqn:AL; try discriminate. cbv beta iota in A.
    apply (update_header_plain hash full) in A; [exact A|]. exact (apply_logs_plain _ _ _ _ _ _ _ _ _ _ AL (proj1 Y)). }
  destruct X as [P2 H2]. destruct (init_root p2) as [p3| | |] eqn:IR; try discriminate.
  apply init_root_ok in IR as (h & root & -> & L & KR). intros [= <-].
  split; [exact P2|]. split; [exact H2|]. exists (ps_state p2). split; [reflexivity|].
  destruct H2 as (HB & _). rewrite HB in KR. exact KR.
Qed.

Lemma quiet_info st st' : set_info [] st = set_info [] st' -> quiet st -> quiet st'.
Proof. destruct st, st'. unfold quiet. cbn. intros [= -> -> -> -> -> -> ->]. auto. Qed.
Lemma plain_quiet hash full p : plain hash full p -> quiet (ps_state p).
Proof. intros [_ P]. apply (quiet_info (mkState 0 full [] hash [] [] [] [])); [exact (eq_sym P)|]. repeat split. Qed.

Lemma hive_root order fuel hash full buffer files p t : known_file_type buffer ->
  build order fuel hash false full buffer files = Ok p -> hive (ps_buffer p) t ->
  exists k, ps_root p = Some k /\ waits (ps_file p) ([], true, t) k /\ kn_offset k = t_pos t.
Proof.
  intros K E (B & HB & TP & TS & ND). destruct (build_plain _ _ _ _ _ _ _ K E) as (P & (H & L & _) & st & SI & KR).
  assert (FI : ps_file p = mkFI 4096 (ps_buffer p)).
  { unfold ps_buffer, ps_hbin in *. destruct (ps_file p). cbn in *. now subst. }
  rewrite <- FI in TS.
  destruct (key_load (ps_file p) st true t [] true true) as (k & R & LD).
  { exact B. } { rewrite FI. reflexivity. } { exact TS. }
  { right. apply (quiet_info (ps_state p)); [now symmetry|]. now apply plain_quiet in P. }
  rewrite TP in R. rewrite R in KR. injection KR as KR. exists k. split; [now symmetry|]. split; [split; [exact LD|constructor]|].
  destruct LD as (? & ? & ? & BR & _). apply BR.
Qed.

Lemma out_length above t : length (preorder above t) = length (positions t).
Proof.
  revert above. induction t as [pos name vals subs IH] using tree_ind'; intros above.
  cbn [preorder positions t_name length]. f_equal. induction IH as [|s r X F I]; [reflexivity|].
  cbn [flat_map]. rewrite !app_length, X, I. reflexivity.
Qed.
Lemma post_length above t : length (postorder above t) = length (positions t).
Proof.
  revert above. induction t as [pos name vals subs IH] using tree_ind'; intros above.
  cbn [postorder positions t_name length]. rewrite app_length. cbn [length]. rewrite Nat.add_1_r. f_equal.
  induction IH as [|s r X F I]; [reflexivity|]. cbn [flat_map]. rewrite !app_length, X, I. reflexivity.
Qed.
Lemma hive_iterate order fuel hash full buffer files p t anc m n : known_file_type buffer ->
  build order fuel hash false full buffer files = Ok p -> hive (ps_buffer p) t ->
  (2 * length (positions t) < n)%nat ->
  (exists ks, iterate n p None anc m false = Ok ks /\ shown ks (preorder [] t))
  /\ (exists ks, iterate n p None anc m true = Ok ks /\ shown ks (postorder [] t)).
Proof.
  intros K E HV LN. destruct (hive_root _ _ _ _ _ _ _ _ K E HV) as (k & R & W & O).
  destruct (build_plain _ _ _ _ _ _ _ K E) as (P & (H & L & _) & _).
  assert (Q := plain_quiet _ _ _ P). destruct HV as (B & _ & _ & _ & ND).
  assert (HB : fi_hbin (ps_file p) < 2 ^ 32) by (unfold ps_hbin in H; rewrite H; reflexivity).
  assert (BW : forall q, In q (below t) -> ~ In q [t_pos t]).
  { intros q I [J|[]]. subst q. rewrite positions_eq in ND. apply NoDup_cons_iff in ND as [ND _]. contradiction. }
  unfold iterate, from_parser. rewrite R. split.
  - edestruct (pre_collect (ps_file p) B HB n [([], true, t)]) as (ks & C & S); [| | | | | |exists ks; split; [exact C|]].
    + now right.
    + reflexivity.
    + constructor; [exact W|constructor].
    + unfold all_pos. cbn [flat_map]. rewrite app_nil_r. exact ND.
    + unfold all_below. cbn [flat_map cx_offsets]. rewrite app_nil_r, O. exact BW.
    + unfold all_pos. cbn [flat_map]. rewrite app_nil_r. cbn [p_tree snd]. lia.
    + cbn [flat_map] in S. rewrite app_nil_r in S. exact S.
  - edestruct (post_collect (ps_file p) B HB n [] [([], true, t)]) as (ks & C & S); [split| |exists ks; split; [exact C|]].
    + now right.
    + reflexivity.
    + constructor.
    + constructor; [exact W|constructor].
    + unfold all_pos. cbn [flat_map app]. rewrite app_nil_r. exact ND.
    + unfold all_below. cbn [flat_map cx_offsets app]. rewrite app_nil_r, O. exact BW.
    + unfold all_pos, out_of, posts. cbn [flat_map app]. rewrite !app_nil_r. cbn [p_tree snd p_above fst].
      rewrite post_length. lia.
    + unfold out_of, posts in S. cbn [flat_map app] in S. rewrite app_nil_r in S. exact S.
Qed.
