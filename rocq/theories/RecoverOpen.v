(** Opening with recovery a hive that opens with its logs and, with recovery,
    without them. *)
From Coq Require Import Permutation.
From Verif Require Import Base BaseFacts LayoutSpec LayoutFacts HeaderFacts Util BaseBlock Types Value Node Recover Parser TxLog TxSpec NodeFrame TxApply
  Pure CellSpec CellFacts CellRead ScanSpec ScanFacts Recovered LiveSpec LiveView LiveOpen TreeOpen AnyFile BuildBytes NoAbort TxBuild DumpFacts ReplaySpec ReplayFacts.

(** ** What the first bin must begin with *)
Definition rooted (b : list N) : Prop := 4128 <= len b /\ bytes_at b 4096 4 = HBIN /\ nk_ok (rest_at b 4128).
Lemma values_loop_no_err fi st seq offs : forall acc, read_values_loop fi st seq offs acc <> Err.
Proof.
  induction offs as [|v offs IH]; intros acc; cbn [read_values_loop]; [discriminate|]. cbv zeta.
  destruct (get_at _ _); [|discriminate]. destruct (get_from _ _); [|discriminate].
  destruct (kv_from_bytes _ _ _ _) as [[w r]| | |]; try discriminate. apply IH.
Qed.
Lemma values_no_err fi st seq k : read_values fi st seq k <> Err.
Proof.
  unfold read_values. cbv zeta. destruct (_ && _); [|discriminate]. destruct (_ <? _); [discriminate|].
  destruct (parse_key_values _ _ _) as [offs|]; [|discriminate]. pose proof (values_loop_no_err fi st seq offs []) as V.
  destruct (read_values_loop _ _ _ _ _) as [[[vs logs] ok]| | |]; congruence.
Qed.
Lemma notes_no_err st : forall fuel k, update_modified_lists fuel st k <> Err.
Proof.
  induction fuel as [|fuel IH]; intros k; cbn [update_modified_lists]; [discriminate|]. destruct (is_deleted_primary_file _); [discriminate|].
  cbv zeta. destruct (aget beq (lookup_path k) (st_deleted_keys st)) as [dks|]; [|discriminate].
  match goal with |- (let* _ := (let* l := ?g dks in _) in _) <> Err => assert (G : g dks <> Err) end.
  { induction dks as [|d dks IHd]; [discriminate|]. specialize (IH d). destruct (kn_offset d =? kn_offset k).
    - cbv beta iota. match goal with |- (let* _ := ?x in _) <> Err => destruct x eqn:Q end; try discriminate. now elim IHd.
    - destruct (update_modified_lists fuel st d); try discriminate; [|now elim IH]. cbv beta iota.
      match goal with |- (let* _ := ?x in _) <> Err => destruct x eqn:Q end; try discriminate. now elim IHd. }
  match type of G with ?x <> Err => destruct x eqn:Q; try discriminate end. now elim G.
Qed.
Lemma root_not_err p : ps_hbin p = 4096 -> rooted (ps_buffer p) -> init_root p <> Err.
Proof.
  intros H (L & T & K). unfold init_root. rewrite H, get_from_rest by lia. cbn [ok_or]. cbv beta iota.
  destruct (hbin_cases 4096 (rest_at (ps_buffer p) 4096)) as [(_ & _ & ->)|([X|X] & _)]; [|rewrite len_rest_at in X; lia|rewrite bytes_at_rest, N.add_0_r in X; contradiction].
  cbv beta iota zeta. rewrite rest_rest, len_rest_at. replace (4096 + 32) with 4128 by reflexivity.
  match goal with |- context [ps_buffer (ps_set_hbin ?h p)] => change (ps_buffer (ps_set_hbin h p)) with (ps_buffer p);
    change (ps_file (ps_set_hbin h p)) with (ps_file p); change (ps_state (ps_set_hbin h p)) with (ps_state p) end.
  replace (len (ps_buffer p) - (len (ps_buffer p) - 4128)) with 4128 by lia.
  unfold kn_read, read_from_slice. cbn [op_offset op_path op_filter op_self_match op_seq op_modified].
  change (fi_buffer (ps_file p)) with (ps_buffer p). rewrite get_from_rest by lia. cbn [ok_or]. cbv beta iota.
  destruct (kn_cases (ps_state p) (rest_at (ps_buffer p) 4128) 4128 [] None) as [(_ & nm & w & _ & ->)|(X & _)]; [|contradiction].
  cbv beta iota. set (k := kn_at _ _ _ _ _ _ _).
  match goal with |- context [if ?c then _ else Ok k] => set (c0 := c) end.
  assert (V : forall x, (if c0 then (let* (k1, ok) := read_values (ps_file p) (ps_state p) None k in Ok (if ok : bool then k1 else kn_add_log WarningParse k1)) else Ok k) = x -> x <> Err).
  { intros x <-. destruct c0; [|discriminate]. pose proof (values_no_err (ps_file p) (ps_state p) None k) as V. destruct (read_values _ _ _ _) as [[k1 ok]| | |]; congruence. }
  match goal with |- context [if c0 then ?a else Ok k] => destruct (if c0 then a else Ok k) as [k1| | |] eqn:E end; try discriminate; [|now elim (V Err eq_refl)].
  cbv beta iota zeta. pose proof (notes_no_err (ps_state p) (uml_fuel (ps_state p)) k1) as U.
  destruct (update_modified_lists _ _ k1); try discriminate. now elim U.
Qed.
Lemma root_rooted p p' : ps_hbin p = 4096 -> init_root p = Ok p' -> rooted (ps_buffer p).
Proof.
  intros H. unfold init_root. rewrite H. destruct (get_from _ _) as [i|] eqn:G; [|discriminate]. cbn [ok_or]. cbv beta iota.
  apply get_from_some in G as (L & E & _). change i with (id i) in E. change (skipn (N.to_nat 4096) (ps_buffer p)) with (rest_at (ps_buffer p) 4096) in E. unfold id in E. subst i.
  destruct (hbin_cases 4096 (rest_at (ps_buffer p) 4096)) as [(X & Y & ->)|(_ & ->)]; [|discriminate].
  rewrite len_rest_at in X. rewrite bytes_at_rest, N.add_0_r in Y.
  cbv beta iota zeta. rewrite rest_rest, len_rest_at. replace (4096 + 32) with 4128 by reflexivity.
  match goal with |- context [ps_buffer (ps_set_hbin ?h p)] => change (ps_buffer (ps_set_hbin h p)) with (ps_buffer p);
    change (ps_file (ps_set_hbin h p)) with (ps_file p); change (ps_state (ps_set_hbin h p)) with (ps_state p) end.
  replace (len (ps_buffer p) - (len (ps_buffer p) - 4128)) with 4128 by lia.
  unfold kn_read, read_from_slice. cbn [op_offset op_path op_filter op_self_match op_seq op_modified].
  change (fi_buffer (ps_file p)) with (ps_buffer p). rewrite get_from_rest by lia. cbn [ok_or]. cbv beta iota.
  destruct (kn_cases (ps_state p) (rest_at (ps_buffer p) 4128) 4128 [] None) as [(K & _)|(_ & ->)]; [|discriminate].
  intros _. split; [lia|now split].
Qed.

(** ** The steps of opening *)
Section Fine.
Variables (full : bool) (hash : list N -> N).
Notation twin := (twin full hash).
Definition fine {A} (r r' : res A) : Prop := forall a, r = Ok a -> r' <> Err.
Lemma insert_no_err seq : forall ks m, insert_keys seq ks m <> Err.
Proof.
  assert (V : forall path vs m, insert_values path seq vs m <> Err).
  { intros path. induction vs as [|v vs IH]; intros m; cbn [insert_values]; [discriminate|].
    destruct (must_hash (kv_hash v)) eqn:E; try discriminate; [apply IH|]. unfold must_hash, or_panic in E. destruct (kv_hash v); discriminate. }
  induction ks as [|k ks IH]; intros m; cbn [insert_keys]; [discriminate|].
  destruct (must_hash (kn_hash k)) eqn:E; try discriminate; [|unfold must_hash, or_panic in E; destruct (kn_hash k); discriminate].
  cbv beta iota zeta. destruct (insert_values _ _ _ _) eqn:I; try discriminate; [apply IH|now elim (V _ _ _ I)].
Qed.
Lemma items_no_err fuel q : ps_hbin q = 4096 -> rooted (ps_buffer q) -> get_reg_items fuel q 0 <> Err.
Proof.
  intros H R. unfold get_reg_items. destruct (ps_recover q); [|discriminate]. pose proof (root_not_err q H R) as X.
  destruct (init_root q) as [q1| | |]; try discriminate; [|now elim X]. cbv beta iota. pose proof (iterate_no_err fuel q1 None false true false) as Y.
  destruct (iterate _ _ _ _ _ _) as [ks| | |]; try discriminate; [|now elim Y]. cbv beta iota. pose proof (insert_no_err 0 ks []) as Z.
  destruct (insert_keys _ _ _); congruence.
Qed.
Lemma entries_fine order fuel order' fuel' sec hbins es : forall n p q items items', twin p q ->
  fine (update_entries order fuel sec hbins es n p items) (update_entries order' fuel' sec hbins es n q items').
Proof.
  induction es as [|e es IH]; intros n p q items items' T x; cbn [update_entries]; [discriminate|].
  destruct (le_valid_hashes e); [|discriminate].
  destruct (_ <? sec); [now apply IH|]. destruct (negb _); [discriminate|]. destruct (_ && _); [discriminate|].
  cbv zeta. unfold ps_buffer, ps_hbin. rewrite <- (proj1 T).
  destruct (apply_pages _ _ _) as [b| | |]; try discriminate. cbv beta iota. set (fi := mkFI _ _).
  destruct (analyze_entry order fuel fi (le_seq e) (ps_set_buffer b p) items) as [[i1 p1]| | |] eqn:E1; try discriminate.
  destruct (analyze_entry order' fuel' fi (le_seq e) (ps_set_buffer b q) items') as [[i2 p2]| | |] eqn:E2; try discriminate.
  2:{ unfold analyze_entry in E2. destruct (ps_recover _); [|discriminate]. destruct (get_latest_reg_items _ _ _ _ _ _) as [[[? ?] ?]| | |]; discriminate. }
  cbv beta iota. apply IH. pose proof (twin_buffer _ _ b p q T) as T'.
  apply (twin_hive _ _ _ _ _ _ (analyze_same _ _ _ _ _ _ _ _ E1) (analyze_same _ _ _ _ _ _ _ _ E2)); [| |exact T'].
  - eapply analyze_inv; [|exact E1]. apply T'.
  - eapply analyze_inv; [|exact E2]. apply T'.
Qed.
Lemma logs_fine order fuel order' fuel' sec logs : forall n p q items items', twin p q ->
  fine (apply_logs order fuel sec logs n p items) (apply_logs order' fuel' sec logs n q items').
Proof.
  induction logs as [|l logs IH]; intros n p q items items' T x; cbn [apply_logs]; [discriminate|].
  destruct (sec <=? _); [|now apply IH]. destruct (_ || _); [|now apply IH].
  unfold update_parser, base_block_info. rewrite <- (proj1 (proj2 T)).
  destruct (ps_base_block p); cbn [or_panic]; [|discriminate]. cbv beta iota.
  match goal with |- context [update_entries order fuel ?s ?h ?es ?m p items] => pose proof (entries_twin _ _ order fuel order' fuel' s h es m p q items items' T) as U;
    pose proof (entries_fine order fuel order' fuel' s h es m p q items items' T) as V;
    destruct (update_entries order fuel s h es m p items) as [[[n1 i1] p1]| | |]; try discriminate;
    destruct (update_entries order' fuel' s h es m q items') as [[[n2 i2] p2]| | |]; try discriminate; [|now elim (V _ eq_refl)] end.
  specialize (U _ _ eq_refl eq_refl) as [U1 U2]. cbn [fst snd] in U1, U2. subst n2. cbv beta iota. now apply IH.
Qed.
Lemma base_block_fine p q : twin p q -> fine (init_base_block p) (init_base_block q).
Proof.
  intros T x. unfold init_base_block, check_base_block, ps_buffer. rewrite <- (proj1 T).
  destruct (bb_from_bytes _) as [[bb r]| | |]; try discriminate. cbv beta iota zeta.
  set (p1 := ps_set_base_block bb _). set (q1 := ps_set_base_block bb (ps_set_file _ q)).
  destruct (is_supported bb); [|discriminate].
  assert (F : ps_file (if bb_primary_seq (bb_base bb) =? bb_secondary_seq (bb_base bb) then p1 else ps_log WarningBaseBlock p1)
    = ps_file (if bb_primary_seq (bb_base bb) =? bb_secondary_seq (bb_base bb) then q1 else ps_log WarningBaseBlock q1)) by (destruct (_ =? _); reflexivity).
  rewrite <- F. destruct (get_range _ _ _); [|discriminate]. cbn [or_panic].
  destruct (calculate_checksum _) as [ck| | |]; try discriminate. cbv beta iota. now destruct (ck =? _).
Qed.
Lemma header_fine n p q : twin p q -> fine (update_header n p) (update_header n q).
Proof.
  intros T x. unfold update_header, ps_buffer. rewrite <- (proj1 T).
  destruct (overwrite _ _ _); [|discriminate]. cbn [or_panic]. destruct (overwrite _ _ _); [|discriminate]. cbn [or_panic].
  destruct (get_range _ _ _); [|discriminate]. cbn [or_panic]. destruct (calculate_checksum _); try discriminate.
  cbv beta iota. destruct (overwrite _ _ _) as [b|]; [|discriminate]. cbn [or_panic].
  pose proof (base_block_fine _ _ (twin_buffer _ _ b p q T)) as B.
  destruct (init_base_block (ps_set_buffer b p)) as [[[s1 b1] p1]| | |]; try discriminate. specialize (B _ eq_refl).
  destruct (init_base_block (ps_set_buffer b q)) as [[[s2 b2] q1]| | |]; congruence.
Qed.
Lemma prepare_fine bad logs p q : twin p q -> fine (prepare_logs bad p logs) (prepare_logs bad q logs).
Proof.
  intros T x. unfold prepare_logs. destruct bad.
  - unfold handle_bad_checksum. destruct (List.last _ _); [|discriminate]. cbn [or_panic]. cbv beta zeta iota.
    change (ps_buffer (ps_log WarningBaseBlock p)) with (ps_buffer p). change (ps_buffer (ps_log WarningBaseBlock q)) with (ps_buffer q).
    unfold ps_buffer. rewrite <- (proj1 T). destruct (get_range _ _ _); [|discriminate]. cbn [ok_or].
    destruct (overwrite _ _ _) as [b|]; [|discriminate]. cbn [or_panic].
    pose proof (base_block_fine _ _ (twin_buffer _ _ b _ _ (twin_log _ _ WarningBaseBlock WarningBaseBlock _ _ T))) as B.
    destruct (init_base_block (ps_set_buffer b (ps_log WarningBaseBlock p))) as [[[s1 b1] p1]| | |]; try discriminate. specialize (B _ eq_refl).
    destruct (init_base_block (ps_set_buffer b (ps_log WarningBaseBlock q))) as [[[s2 b2] q1]| | |]; try discriminate; [|now elim B].
    intros _. cbv beta iota. destruct (ps_base_block q1); [|discriminate]. cbn [or_panic]. now destruct (_ =? _).
  - intros _. destruct (ps_base_block q); [|discriminate]. cbn [or_panic]. now destruct (_ =? _).
Qed.
(** The replay begins with a file that has the same bins. *)
Lemma prepare_rooted bad logs q go q1 l : Forall cut logs -> ps_hbin q = 4096 -> rooted (ps_buffer q) -> prepare_logs bad q logs = Ok (go, q1, l) ->
  ps_hbin q1 = 4096 /\ rooted (ps_buffer q1).
Proof.
  intros C H R. unfold prepare_logs. destruct bad.
  - unfold handle_bad_checksum. destruct (List.last _ _) as [newest|] eqn:LA; [|discriminate]. cbn [or_panic]. cbv beta zeta iota.
    change (ps_buffer (ps_log WarningBaseBlock q)) with (ps_buffer q). destruct (get_range _ _ _); [|discriminate]. cbn [ok_or].
    destruct (overwrite _ _ _) as [b|] eqn:O; [|discriminate]. cbn [or_panic].
    destruct (init_base_block _) as [[[s2 b2] q2]| | |] eqn:B; try discriminate. apply init_base_ok in B as (HD & BU & _). cbv beta iota.
    change (ps_buffer (ps_set_buffer b (ps_log WarningBaseBlock q))) with b in BU.
    apply last_in in LA. rewrite Forall_forall in C. specialize (C _ LA). unfold cut in C.
    assert (CL : 0 + len (tl_base_bytes newest) <= 4096) by lia. destruct (over_rest hash _ _ _ _ O CL) as (OL & OR).
    assert (X : ps_hbin q2 = 4096 /\ rooted (ps_buffer q2)).
    { split; [exact (proj1 HD)|]. rewrite BU. destruct R as (R1 & R2 & R3). split; [lia|]. split.
      - rewrite <- (N.add_0_r 4096), <- bytes_at_rest, OR, bytes_at_rest. exact R2.
      - change 4128 with (4096 + 32). rewrite <- rest_rest, OR, rest_rest. exact R3. }
    destruct (ps_base_block q2); [|discriminate]. cbn [or_panic]. destruct (_ =? _); intros [= _ <- _]; exact X.
  - destruct (ps_base_block q); [|discriminate]. cbn [or_panic]. cbv beta iota. destruct (_ =? _); intros [= _ <- _]; now split.
Qed.
Lemma apply_fine order fuel order' fuel' bad logs p q : twin p q -> Forall cut logs -> ps_hbin q = 4096 -> rooted (ps_buffer q) ->
  fine (apply_transaction_logs order fuel bad logs p) (apply_transaction_logs order' fuel' bad logs q).
Proof.
  intros T C HB RO x. unfold apply_transaction_logs. destruct logs as [|l logs]; [discriminate|].
  pose proof (prepare_twin _ _ bad (l :: logs) p q T) as H. pose proof (prepare_fine bad (l :: logs) p q T) as PF.
  destruct (prepare_logs bad p (l :: logs)) as [[[go p1] l1]| | |]; try discriminate. specialize (PF _ eq_refl).
  destruct (prepare_logs bad q (l :: logs)) as [[[go' q1] l2]| | |] eqn:PQ; try discriminate; [|now elim PF].
  specialize (H _ _ eq_refl eq_refl) as (H1 & H2 & H3). cbn [fst snd] in H1, H2, H3. subst go' l2. cbv beta iota.
  destruct go; [|discriminate]. destruct (prepare_rooted _ _ _ _ _ _ C HB RO PQ) as (HB1 & RO1).
  destruct (get_reg_items fuel p1 0) as [[i1 p2]| | |] eqn:G1; try discriminate.
  destruct (get_reg_items fuel' q1 0) as [[i2 q2]| | |] eqn:G2; try discriminate; [|now elim (items_no_err fuel' q1 HB1 RO1)].
  assert (S : forall fuel p i p', get_reg_items fuel p 0 = Ok (i, p') -> ps_state p' = ps_state p).
  { clear. intros fuel p i p'. unfold get_reg_items. destruct (ps_recover p); [|now intros [= _ <-]].
    destruct (init_root p) as [q| | |] eqn:I; try discriminate. apply init_root_state in I.
    destruct (iterate _ _ _ _ _ _); try discriminate. destruct (insert_keys _ _ _); try discriminate. now intros [= _ <-]. }
  assert (T2 : twin p2 q2).
  { apply (twin_hive _ _ _ _ _ _ (get_reg_items_same _ _ _ _ _ G1) (get_reg_items_same _ _ _ _ _ G2)); [| |exact H3].
    - rewrite (S _ _ _ _ G1). apply H3.
    - rewrite (S _ _ _ _ G2). apply H3. }
  cbv beta iota. unfold base_block_info. rewrite <- (proj1 (proj2 T2)).
  destruct (ps_base_block p2); cbn [or_panic]; [|discriminate]. cbv beta iota.
  match goal with |- context [apply_logs order fuel ?s l1 0 p2 i1] => pose proof (logs_twin _ _ order fuel order' fuel' s l1 0 p2 q2 i1 i2 T2) as U;
    pose proof (logs_fine order fuel order' fuel' s l1 0 p2 q2 i1 i2 T2) as V;
    destruct (apply_logs order fuel s l1 0 p2 i1) as [[n1 p3]| | |]; try discriminate; specialize (V _ eq_refl);
    destruct (apply_logs order' fuel' s l1 0 q2 i2) as [[n2 q3]| | |]; try discriminate; [|now elim V] end.
  specialize (U _ _ eq_refl eq_refl) as [U1 U2]. cbn [fst snd] in U1, U2. subst n2. cbv beta iota. now apply header_fine.
Qed.
Lemma root_fine p q : twin p q -> fine (init_root p) (init_root q).
Proof.
  intros T x. unfold init_root, ps_buffer, ps_hbin. rewrite <- (proj1 T). destruct (get_from _ _); [|discriminate]. cbn [ok_or].
  destruct (hbin_from_bytes _ _) as [[h r]| | |]; try discriminate. cbv beta iota zeta. cbn [ps_set_hbin ps_file ps_state]. rewrite <- (proj1 T).
  match goal with |- match kn_read ?fi ?a ?o with _ => _ end = _ -> match kn_read _ ?b _ with _ => _ end <> _ =>
    pose proof (read_like fi o a b (inv_pair _ _ _ _ (proj1 (proj2 (proj2 T))) (proj2 (proj2 (proj2 T))))) as R;
    destruct (kn_read fi a o) as [[r1 s1]| | |]; try discriminate; destruct (kn_read fi b o) as [[r2 s2]| | |]; try discriminate end.
  destruct R as [R|[R|R]]; try discriminate R. contradiction.
Qed.
Lemma build_fine order fuel order' fuel' order0 fuel0 buf files p q0 : known_file_type buf -> Forall bytes_ok files ->
  build order fuel hash false full buf files = Ok p -> build order0 fuel0 hash true full buf [] = Ok q0 ->
  build order' fuel' hash true full buf files <> Err.
Proof.
  intros K BF. unfold build. destruct (parse_logs files) as [[logs w]| | |] eqn:PL; try discriminate. change (parse_logs []) with (@Ok (list transaction_log * list log_code) ([], [])). cbv beta iota zeta.
  assert (C : Forall cut logs).
  { apply parse_logs_ok in PL as (PL & _); [|exact BF]. eapply Forall_impl; [|exact PL]. intros l (f & _ & E). now apply cut_log in E. }
  set (p0 := mkParser _ _ _ _ _ false). set (r0 := mkParser _ _ _ _ _ true).
  assert (I0 : inv full hash (mkState 0 full [] hash [] [] [] [])) by (split; [reflexivity|]; split; [reflexivity|]; split; [reflexivity|]; split; constructor).
  assert (T : twin p0 r0) by (split; [reflexivity|]; split; [reflexivity|]; now split).
  unfold ps_init. pose proof (base_block_twin _ _ p0 r0 T) as B.
  destruct (init_base_block p0) as [[[s b] p1]| | |] eqn:E1; try discriminate.
  destruct (init_base_block r0) as [[[s' b'] q1]| | |] eqn:E2; try discriminate.
  specialize (B _ _ eq_refl eq_refl) as [B1 B2]. cbn [fst snd] in B1, B2. injection B1 as <- <-. cbv beta iota.
  pose proof (init_base_ok _ _ _ _ E2) as (HD & _ & _ & _ & SU). apply SU in K. subst s.
  destruct (ps_base_block q1) as [bb|]; [|discriminate]. cbn [or_panic].
  destruct (find_free_keys_and_values _ _ _) as [st| | |] eqn:F; try discriminate. cbv beta iota.
  apply scan_inv with (full := full) (hash := hash) in F; [|apply B2].
  assert (T2 : twin p1 (ps_set_state st q1)) by (destruct B2 as (X1 & X2 & X3 & _); now repeat (split; [assumption|])).
  change (apply_transaction_logs order0 fuel0 b [] (ps_set_state st q1)) with (Ok (ps_set_state st q1)). cbv beta iota.
  intros EP EQ. destruct (init_root (ps_set_state st q1)) as [q2| | |] eqn:IQ; try discriminate EQ.
  pose proof (root_rooted (ps_set_state st q1) q2 (proj1 HD) IQ) as RO.
  pose proof (apply_twin _ _ order fuel order' fuel' b logs p1 _ T2) as A.
  pose proof (apply_fine order fuel order' fuel' b logs p1 _ T2 C (proj1 HD) RO) as AF.
  destruct (apply_transaction_logs _ _ _ _ p1) as [p2| | |]; try discriminate EP. specialize (AF _ eq_refl).
  destruct (apply_transaction_logs _ _ _ _ (ps_set_state st q1)) as [q3| | |]; try discriminate; [|now elim AF].
  specialize (A _ _ eq_refl eq_refl). cbv beta iota in EP |- *. pose proof (root_fine _ _ A) as RF.
  destruct (init_root p2) as [p3| | |]; try discriminate EP. specialize (RF _ eq_refl). destruct (init_root q3); try discriminate. now elim RF.
Qed.
End Fine.

(** Log files that were read leave nothing to abort on. *)
Lemma read_safe files logs w : parse_logs files = Ok (logs, w) -> forall f, In f files -> log_from_bytes f <> Panic.
Proof.
  unfold parse_logs. destruct (parse_each files) as [[ls v]| | |] eqn:E; try discriminate. intros _. revert ls v E.
  induction files as [|f files IH]; intros ls v E g I; [destruct I|]. destruct f as [|a f].
  - cbn [parse_each] in E. destruct (parse_each files) as [[ls1 v1]| | |]; try discriminate E. destruct I as [<-|I]; [discriminate|now apply (IH _ _ eq_refl)].
  - change (parse_each ((a :: f) :: files)) with (match log_from_bytes (a :: f) with
      | Ok l => let* (ls, w) := parse_each files in Ok (l :: ls, w)
      | Err => let* (ls, w) := parse_each files in Ok (ls, WarningParse :: w)
      | Panic => Panic | OutOfFuel => OutOfFuel end) in E.
    destruct (parse_each files) as [[ls1 v1]| | |]; destruct (log_from_bytes (a :: f)) eqn:L; try discriminate E;
      (destruct I as [<-|I]; [congruence|now apply (IH _ _ eq_refl)]).
Qed.
Lemma opens_both order hash full buffer files order0 fuel0 order1 fuel1 p q0 :
  (forall m, Permutation (order m) m) -> bytes_ok buffer -> Forall bytes_ok files -> known_file_type buffer ->
  numbered buffer files -> steady buffer files ->
  build order0 fuel0 hash false full buffer files = Ok p -> build order1 fuel1 hash true full buffer [] = Ok q0 ->
  exists bound q, forall n, (bound < n)%nat -> build order n hash true full buffer files = Ok q.
Proof.
  intros PO B BF K N ST E0 E1. destruct (replay_ends order full hash buffer files PO B BF N ST) as (r & NF & (b & H) & _).
  exists b. pose proof (H (S b) ltac:(lia)) as HB.
  assert (NP : build order (S b) hash true full buffer files <> Panic).
  { apply build_safe. unfold build in E0. destruct (parse_logs files) as [[logs w]| | |] eqn:PL; try discriminate. exact (read_safe _ _ _ PL). }
  pose proof (build_fine full hash order0 fuel0 order (S b) order1 fuel1 buffer files p q0 K BF E0 E1) as NE. rewrite HB in NP, NE.
  destruct r as [q| | |]; try congruence. now exists q.
Qed.
