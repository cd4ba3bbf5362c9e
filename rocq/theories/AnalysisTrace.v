(** The entries a build applies, one comparison after the other. *)
From Verif Require Import Base BaseFacts LayoutSpec LayoutFacts HeaderFacts BaseBlock Util Types Value Node Recover Parser TxLog NodeFrame
  TxSpec TxApply TxBuild CellRead TreeOpen ScanFacts LiveOpen StoreSpec StoreFacts LogSpec LogFacts AnalysisSpec AnalysisFacts AnalysisStore AnalysisAll AnalysisLoss AnalysisReach.

Section Trace.
Context (order : reg_items -> reg_items) (fuel : nat) (full : bool) (hash : list N -> N) (told : list log_code).
Notation R st := (reached order fuel full hash st).
Notation T := (taken order fuel full hash).
Notation H hb := (history order fuel full hash hb told).

Lemma set_info_twice i j st : set_info i (set_info j st) = set_info i st.
Proof. reflexivity. Qed.
Lemma set_info_id st : set_info (st_info st) st = st.
Proof. now destruct st. Qed.
Lemma history_app hb m1 es m2 : H hb m1 es m2 -> forall fs m3, H hb m2 fs m3 -> H hb m1 (es ++ fs) m3.
Proof.
  induction 1 as [b bf pr st i|b bf pr st i e b1 af lt st1 es m O C LO X IH]; intros fs m3 Y.
  - cbn [app]. inversion Y; subst.
    + rewrite set_info_twice; apply history_none.
    + rewrite set_info_twice in *. eapply history_entry; eassumption.
  - cbn [app]. eapply history_entry; [exact O|exact C|exact LO|]. now apply IH.
Qed.
(** The entries up to one after which the hive cannot be iterated. *)
Definition broken hb (m : moment) (es : list log_entry) : Prop :=
  exists done e rest m', es = done ++ e :: rest /\ H hb m done m' /\ unreadable_after fuel hb m' e /\ In WarningTransactionLog told.
Lemma broken_more hb m es fs : broken hb m es -> broken hb m (es ++ fs).
Proof. intros (d & e & r & m' & -> & X & U). exists d, e, (r ++ fs), m'. rewrite <- app_assoc. now split. Qed.
Lemma broken_after hb m es m' fs : H hb m es m' -> broken hb m' fs -> broken hb m (es ++ fs).
Proof.
  intros X (d & e & r & m2 & -> & Y & U). exists (es ++ d), e, r, m2. rewrite <- app_assoc. split; [reflexivity|].
  split; [now apply (history_app _ _ _ _ X)|exact U].
Qed.

(** The parser stands at a moment. *)
Definition at_moment (m : moment) (p : parser) (items : reg_items) : Prop :=
  let '(b, before, prior, st) := m in
  ps_file p = mkFI 4096 b /\ prior = items /\ T (mkFI 4096 b) before prior /\ R (ps_state p) /\ ps_recover p = true
  /\ exists i, ps_state p = set_info i st.
Lemma at_log m p items c : at_moment m p items -> at_moment m (ps_log c p) items.
Proof.
  destruct m as [[[b bf] pr] st]. intros (F & I & X & RR & Q & i & S). repeat split; try assumption.
  - now apply reached_info.
  - cbn [ps_log ps_set_state ps_state]. unfold add_info. rewrite S. eexists. reflexivity.
Qed.

Lemma handle_values_not_err seq path vs : forall m logs, handle_values seq path vs m logs <> Err.
Proof.
  induction vs as [|v vs IH]; intros [[a b] c] logs; cbn [handle_values]; [discriminate|].
  destruct (must_hash (kv_hash v)) eqn:E; try discriminate; [|unfold must_hash, or_panic in E; destruct (kv_hash v); discriminate].
  cbv beta iota zeta. destruct (handle_new_item _ _ _ _ _) as [[? ?] ?]. apply IH.
Qed.
Lemma handle_keys_not_err seq ks : forall a b c d logs, handle_keys seq ks a b c d logs <> Err.
Proof.
  induction ks as [|k ks IH]; intros a b c d logs; cbn [handle_keys]; [discriminate|].
  destruct (must_hash (kn_hash k)) eqn:E; try discriminate; [|unfold must_hash, or_panic in E; destruct (kn_hash k); discriminate].
  cbv beta iota zeta. destruct (handle_new_item _ _ _ _ _) as [[? ?] ?].
  destruct (handle_values _ _ _ _ _) as [[[[? ?] ?] ?]| | |] eqn:V; try discriminate; [|now apply handle_values_not_err in V].
  cbv beta iota. apply IH.
Qed.
Lemma add_all_not_err {A} (f : state -> A -> res state) l : forall st logs, add_all f l st logs <> Err.
Proof. induction l as [|x l IH]; intros st logs; cbn [add_all]; [discriminate|]. destruct (f st x); try discriminate; apply IH. Qed.
Lemma latest_err fi seq p items : get_latest_reg_items order fuel fi seq p items = Err ->
  forall p1 after, init_root p = Ok p1 -> iterate fuel p1 None false false false <> Ok after.
Proof.
  intros E p1 af I A. unfold get_latest_reg_items in E. rewrite I in E. cbv beta iota in E. rewrite A in E. cbv beta iota in E.
  destruct (handle_keys _ _ _ _ _ _ _) as [[[[[? ?] ?] ?] ?]| | |] eqn:K; try discriminate; [|now apply handle_keys_not_err in K].
  cbv beta iota in E.
  destruct (add_all _ _ _ _) as [[? ?]| | |] eqn:A1 in E; try discriminate; [|now apply add_all_not_err in A1]. cbv beta iota in E.
  destruct (add_all _ _ _ _) as [[? ?]| | |] eqn:A2 in E; try discriminate; [|now apply add_all_not_err in A2]. cbv beta iota in E.
  destruct (add_all _ _ _ _) as [[? ?]| | |] eqn:A3 in E; try discriminate. now apply add_all_not_err in A3.
Qed.
Lemma latest_iterates fi seq p items x : get_latest_reg_items order fuel fi seq p items = Ok x ->
  exists p1 after, init_root p = Ok p1 /\ iterate fuel p1 None false false false = Ok after.
Proof.
  unfold get_latest_reg_items. destruct (init_root p) as [p1| | |]; try discriminate. cbv beta iota.
  destruct (iterate _ _ _ _ _ _) as [af| | |] eqn:A; try discriminate. intros _. now exists p1, af.
Qed.

(** One entry. *)
Lemma entry_step hb m p items e b i' p' : let '(b0, _, _, _) := m in
  at_moment m p items -> overlaid 4096 hb [e] b0 b ->
  analyze_entry order fuel (mkFI 4096 (grown_file hb e b0)) (le_seq e) (ps_set_buffer b p) items = Ok (i', p') -> grows (info p') told ->
  (exists m', H hb m [e] m' /\ at_moment m' p' i') \/ unreadable_after fuel hb m e /\ In WarningTransactionLog told.
Proof.
  destruct m as [[[b0 bf] pr] st]. intros (F & <- & X & RR & Q & i & S) O. set (p1 := ps_set_buffer b p).
  assert (F1 : ps_file p1 = mkFI 4096 b) by (unfold p1, ps_set_buffer, ps_set_file, ps_hbin; cbn [ps_file]; now rewrite F).
  assert (S1 : ps_state p1 = set_info i st) by exact S.
  unfold analyze_entry. replace (ps_recover p1) with true by (symmetry; exact Q).
  destruct (get_latest_reg_items _ _ _ _ _ _) as [[[lt p2] logs]| | |] eqn:G; try discriminate.
  - intros [= <- <-] TO. left. destruct (latest_iterates _ _ _ _ _ G) as (q & af & I & A).
    assert (R1 : R (ps_state p1)) by exact RR.
    pose proof (compares_entry order fuel full hash (mkFI 4096 b0) 4096 (repeat 0 (N.to_nat (le_hbins_size e - hb))) bf pr (le_seq e) p1 q af lt p2 logs X R1 I A G) as C.
    cbn [fi_buffer] in C. rewrite F1, S1 in C.
    pose proof (taken_next _ _ _ _ p1 q af (mkFI 4096 (grown_file hb e b0)) (le_seq e) pr lt p2 logs R1 (proj1 (taken_seen _ _ _ _ _ _ _ X)) I A G) as TN.
    rewrite F1 in TN. pose proof (get_latest_same _ _ _ _ _ _ _ _ _ G) as (G1 & _ & G3).
    exists (b, af, lt, set_info (st_info (ps_state p2)) (ps_state p2)). split.
    + eapply history_entry; [exact O|exact C| |apply history_none]. intros PO.
      destruct (lost_reported _ _ _ _ _ _ _ _ _ _ _ (proj1 (taken_seen _ _ _ _ _ _ _ X)) PO I A G) as [NL|W]; [left; rewrite <- S1; exact NL|right].
      apply (grows_in _ _ _ TO). unfold info. cbn [ps_set_state ps_state set_info st_info]. apply in_or_app. now right.
    + split; [cbn [ps_set_state ps_file]; now rewrite G1|]. split; [reflexivity|]. split; [exact TN|].
      split; [apply reached_info; exact (reached_compare _ _ _ _ _ _ _ _ _ _ _ R1 G)|].
      split; [cbn [ps_set_state ps_recover]; rewrite G3; exact Q|]. eexists. reflexivity.
  - intros [= _ <-] TO. right. split; [|apply (grows_in _ _ _ TO), in_log]. exists p1, i. split; [now unfold ps_buffer; rewrite F1|]. split; [now unfold ps_hbin; rewrite F1|].
    split; [exact S1|]. exact (latest_err _ _ _ _ G).
Qed.

Lemma grown_file_is hb e b : (if hb <? le_hbins_size e then b ++ repeat 0 (N.to_nat (le_hbins_size e - hb)) else b) = grown_file hb e b.
Proof.
  unfold grown_file. destruct (N.ltb_spec hb (le_hbins_size e)); [reflexivity|].
  replace (le_hbins_size e - hb) with 0 by lia. cbn. now rewrite app_nil_r.
Qed.
Lemma pages_overlaid hb e b b1 : apply_pages 4096 (le_pages e) (grown_file hb e b) = Ok b1 -> overlaid 4096 hb [e] b b1.
Proof.
  intros A. apply apply_pages_ok in A as (L & _ & A). unfold grown_file in *. rewrite len_app, len_repeat in L. split.
  - cbn [growth fold_right]. lia.
  - intros i I. rewrite A, nth_grown. unfold all_pages. cbn [flat_map]. now rewrite app_nil_r.
Qed.

(** One log. *)
Lemma entries_history sec hb : 0 < sec -> forall es n p items n' i' p' m,
  Forall (fun e => u32 (le_seq e)) es -> (n = 0 \/ sec <= n /\ u32 n) -> at_moment m p items ->
  update_entries order fuel sec hb es n p items = Ok (n', i', p') -> grows (info p') told ->
  exists l rest, fresh sec es = l ++ rest /\ Forall size_ok l /\ chain n l /\ stops n l rest
  /\ ((exists m', H hb m l m' /\ at_moment m' p' i') \/ broken hb m l).
Proof.
  intros Hsec. unfold u32. change (2 ^ 32) with 4294967296.
  assert (NIL : forall m p items, at_moment m p items -> exists m', H hb m [] m' /\ at_moment m' p items).
  { intros [[[b bf] pr] st] p items M. exists (b, bf, pr, set_info (st_info st) st). split; [apply history_none|]. now rewrite set_info_id. }
  induction es as [|e es IH]; intros n p items n' i' p' m U Hn M E TO.
  { cbn in E. injection E as _ <- <-. exists [], []. cbn. repeat split; [constructor|]. left. now apply NIL. }
  apply Forall_cons_iff in U as [U0 U]. cbv beta in U0. cbn [update_entries] in E. rewrite fresh_cons.
  destruct (le_valid_hashes e) eqn:V.
  2:{ injection E as _ <- <-. exists [], []. cbn [app]. repeat split; [constructor|]. left. apply NIL. now apply at_log. }
  destruct (N.ltb_spec (le_seq e) sec) as [S|S].
  { destruct (N.leb_spec sec (le_seq e)); [lia|]. exact (IH _ _ _ _ _ _ m U Hn (at_log _ _ _ _ M) E TO). }
  destruct (N.leb_spec sec (le_seq e)); [|lia].
  destruct (N.eqb_spec (le_hbins_size e mod 4096) 0) as [Z|Z]; cbn [negb] in E.
  2:{ injection E as _ <- <-. exists [], (e :: fresh sec es). cbn [app]. repeat split; [constructor|now left|]. left. apply NIL. now apply at_log. }
  destruct (negb (n =? 0) && negb (le_seq e =? w32 (n + 1))) eqn:Q.
  { injection E as _ <- <-. exists [], (e :: fresh sec es). cbn [app]. repeat split; [constructor| |].
    - right. cbn [app chain]. intros [[->|A] _]; [discriminate|].
      unfold w32 in Q. rewrite N.mod_small in Q by lia. rewrite A, N.eqb_refl, andb_comm in Q. discriminate.
    - left. apply NIL. now apply at_log. }
  assert (C : n = 0 \/ le_seq e = n + 1).
  { destruct (N.eqb_spec n 0); [now left|]. cbn [negb andb] in Q. right.
    destruct (N.eqb_spec (le_seq e) (w32 (n + 1))) as [A|]; [|discriminate].
    destruct Hn as [|[Hn1 Hn2]]; [lia|]. unfold w32 in *.
    destruct (N.eq_dec (n + 1) 4294967296) as [W|W].
    - rewrite W in A. change (4294967296 mod 4294967296) with 0 in A. lia.
    - rewrite N.mod_small in A by lia. exact A. }
  clear Q. cbv zeta in E. rewrite grown_file_is in E. destruct m as [[[b0 bf] pr] st]. pose proof M as (F & _).
  assert (FB : ps_buffer p = b0) by (unfold ps_buffer; now rewrite F).
  assert (FH : ps_hbin p = 4096) by (unfold ps_hbin; now rewrite F). rewrite FB, FH in E.
  destruct (apply_pages 4096 (le_pages e) (grown_file hb e b0)) as [b| | |] eqn:A; try discriminate. cbv beta iota in E.
  apply pages_overlaid in A.
  destruct (analyze_entry _ _ _ _ _ _) as [[it q]| | |] eqn:B; try discriminate. cbv beta iota in E.
  pose proof (update_entries_reports _ _ _ _ _ _ _ _ _ _ _ E) as (TQ & _).
  pose proof (entry_step hb (b0, bf, pr, st) p items e b it q M A B (grows_trans _ _ _ TQ TO)) as ST. cbv beta iota in ST.
  destruct (run_exists (fresh sec es) (le_seq e)) as (l0 & rest0 & F0 & A1 & A2 & A3).
  destruct ST as [(m' & H1 & M1)|BAD].
  - destruct (IH (le_seq e) q it n' i' p' m' U) as (l & rest & F1 & B1 & B2 & B3 & E1); [right; split; assumption|exact M1|exact E|exact TO|].
    exists (e :: l), rest. rewrite F1. repeat split; [constructor; assumption|exact C|exact B2| |].
    { destruct rest as [|g rest]; [exact I|]. cbn [stops app chain] in *. tauto. }
    destruct E1 as [(m2 & H2 & M2)|B4]; [left|right].
    + exists m2. split; [exact (history_app _ _ _ _ H1 _ _ H2)|exact M2].
    + exact (broken_after _ _ _ _ _ H1 B4).
  - exists (e :: l0), rest0. rewrite F0. repeat split; [constructor; assumption|exact C|exact A2| |].
    { destruct rest0 as [|g rest]; [exact I|]. cbn [stops app chain] in *. tauto. }
    right. exists [], e, l0, (b0, bf, pr, set_info (st_info st) st). split; [reflexivity|]. split; [apply history_none|].
    rewrite set_info_id. exact BAD.
Qed.

(** All logs. *)
Lemma logs_history sec hb bb logs : bb_secondary_seq (bb_base bb) = sec -> bb_hive_bins_data_size (bb_base bb) = hb -> 0 < sec ->
  Forall (fun l => Forall (fun e => u32 (le_seq e)) (tl_entries l)) logs ->
  forall n p items n' p' m, ps_base_block p = Some bb -> at_moment m p items ->
  apply_logs order fuel sec logs n p items = Ok (n', p') -> grows (info p') told ->
  exists es k, log_chain sec n logs es k /\ ((exists m' i', H hb m es m' /\ at_moment m' p' i') \/ broken hb m es).
Proof.
  intros S HB Z U. induction U as [|l logs Hl Hls IH]; intros n p items n' p' m B M E TO.
  { cbn in E. injection E as _ <-. exists [], n. split; [constructor|]. left. destruct m as [[[b bf] pr] st]. exists (b, bf, pr, set_info (st_info st) st), items.
    split; [apply history_none|]. now rewrite set_info_id. }
  cbn [apply_logs] in E.
  assert (SKIP : ~ eligible sec n l -> apply_logs order fuel sec logs n (ps_log WarningTransactionLog p) items = Ok (n', p') ->
    exists es k, log_chain sec n (l :: logs) es k /\ ((exists m' i', H hb m es m' /\ at_moment m' p' i') \/ broken hb m es)).
  { intros NE X. apply (IH _ _ _ _ _ m) in X; [|exact B|now apply at_log|exact TO]. destruct X as (es & k & C & O).
    exists es, k. split; [now constructor|exact O]. }
  destruct (N.leb_spec sec (log_primary l)) as [P|P].
  2:{ apply SKIP; [|exact E]. intros [? _]. lia. }
  destruct ((n =? 0) || (log_primary l =? w32 (n + 1))) eqn:Q.
  2:{ apply SKIP; [|exact E]. intros [_ [->|W]]; [discriminate|].
      unfold w32 in Q. change 4294967296 with (2 ^ 32) in Q. rewrite W, N.eqb_refl, orb_comm in Q. discriminate. }
  assert (EL : eligible sec n l).
  { split; [exact P|]. apply orb_prop in Q as [Q|Q]; apply N.eqb_eq in Q; [now left|now right]. }
  destruct (update_parser order fuel l p items) as [[[k it] q]| | |] eqn:W; try discriminate. cbv beta iota in E.
  pose proof W as W'.
  eapply update_parser_spec in W' as (a & A & [[W' _]|(it' & q' & W' & F & O & K1 & K2 & K3)]); try eassumption; try discriminate.
  injection W' as -> -> <-.
  unfold update_parser, base_block_info in W. rewrite B in W. cbv [or_panic] in W. cbv beta iota in W. rewrite S, HB in W.
  pose proof (apply_logs_reports _ _ sec logs bb _ _ _ _ _ (eq_trans K2 B) S Z Hls E) as (TQ & _).
  apply (entries_history sec hb Z _ _ _ _ _ _ _ m) in W; [|exact Hl|now left|exact M|exact (grows_trans _ _ _ TQ TO)].
  destruct W as (a' & rest & F1 & C1 & C2 & C3 & W).
  assert (a' = a) as ->.
  { apply (applied_unique sec (tl_entries l)); [|exact A]. eapply run_applied; eassumption. }
  destruct W as [(m1 & H1 & M1)|BAD].
  - apply (IH _ _ _ _ _ m1) in E; [|now rewrite K2|exact M1|exact TO]. destruct E as (es & j & C & E).
    exists (a ++ es), j. split; [econstructor; eassumption|]. destruct E as [(m2 & i2 & H2 & M2)|BAD]; [left|right].
    + exists m2, i2. split; [exact (history_app _ _ _ _ H1 _ _ H2)|exact M2].
    + exact (broken_after _ _ _ _ _ H1 BAD).
  - destruct (chain_total sec (last_seq a) logs Z) as (es & j & C). exists (a ++ es), j. split; [econstructor; eassumption|].
    right. now apply broken_more.
Qed.

Lemma scan_modified fi st n st' : find_free_keys_and_values fi st n = Ok st' ->
  st_modified_keys st' = st_modified_keys st /\ st_modified_values st' = st_modified_values st.
Proof.
  unfold find_free_keys_and_values. assert (A : agree false st st) by apply agree_refl.
  destruct (recover_loop_ok fi st (S (length (fi_buffer fi))) st (fi_hbin fi) n A) as [E|(s & l & ks & vs & E & (w & G) & _)].
  { unfold len. lia. } { rewrite E. discriminate. }
  rewrite E. intros [= <-]. subst s. now split.
Qed.
Lemma base_info p s bad p' : init_base_block p = Ok (s, bad, p') -> exists i, ps_state p' = set_info i (ps_state p).
Proof.
  unfold init_base_block, check_base_block. destruct (bb_from_bytes _) as [[bb r]| | |]; try discriminate. cbv beta iota zeta.
  destruct (is_supported bb); [|intros [= _ _ <-]; eexists; reflexivity].
  set (q := if _ =? _ then _ else _).
  assert (MQ : exists i, ps_state q = set_info i (ps_state p)).
  { unfold q; destruct (_ =? _); [exists (st_info (ps_state p)); symmetry; apply set_info_id|eexists; reflexivity]. }
  destruct (get_range _ _ _); [|discriminate]. cbn [or_panic]. destruct (calculate_checksum _) as [ck| | |]; try discriminate.
  cbv beta iota. clearbody q. destruct (ck =? _); intros [= _ _ <-]; [exact MQ|]. destruct MQ as (i & MQ).
  cbn [ps_log ps_set_state ps_state]. unfold add_info. rewrite MQ. eexists. reflexivity.
Qed.
Lemma header_info n p p' : update_header n p = Ok p' -> exists i, ps_state p' = set_info i (ps_state p).
Proof.
  unfold update_header. destruct (overwrite _ _ _); [|discriminate]. cbn [or_panic]. destruct (overwrite _ _ _); [|discriminate]. cbn [or_panic].
  destruct (get_range _ _ _); [|discriminate]. cbn [or_panic]. destruct (calculate_checksum _); try discriminate.
  cbv beta iota. destruct (overwrite _ _ _); [|discriminate]. cbn [or_panic].
  destruct (init_base_block _) as [[[s b] p4]| | |] eqn:B; try discriminate. apply base_info in B as (i & B).
  intros [= <-]. cbn [ps_log ps_set_state ps_state]. unfold add_info. rewrite B. eexists. reflexivity.
Qed.
Lemma values_first path seq vs : forall m m', insert_values path seq vs m = Ok m' ->
  (forall w, In w (map fst m') <-> In w (map fst m) \/ In w (map (fun v => (path, Some (vd_name (kv_detail v)))) vs))
  /\ (Forall (fun x => it_seq (snd x) = seq) m -> Forall (fun x => it_seq (snd x) = seq) m').
Proof.
  induction vs as [|v vs IH]; intros m m'; cbn [insert_values map In]; [intros [= <-]; split; [tauto|auto]|].
  destruct (must_hash (kv_hash v)) as [h| | |]; try discriminate. cbv beta iota. intros E. apply IH in E as (E1 & E2). split.
  - intros w. rewrite E1. rewrite (aset_keys item_key_eqb item_key_iff). intuition congruence.
  - intros F. apply E2. clear -F. induction F as [|[w x] m H F IH]; cbn [aset].
    + constructor; [reflexivity|constructor].
    + destruct (item_key_eqb _ w); constructor; auto.
Qed.
Lemma keys_first seq ks : forall m m', insert_keys seq ks m = Ok m' ->
  (forall w, In w (map fst m') <-> In w (map fst m) \/ In w (map fst (sightings ks)))
  /\ (Forall (fun x => it_seq (snd x) = seq) m -> Forall (fun x => it_seq (snd x) = seq) m').
Proof.
  induction ks as [|k ks IH]; intros m m'; cbn [insert_keys sightings flat_map map In]; [intros [= <-]; split; [tauto|auto]|].
  destruct (must_hash (kn_hash k)) as [h| | |]; try discriminate. cbv beta iota.
  destruct (insert_values _ _ _ _) as [m1| | |] eqn:V; try discriminate. cbv beta iota. intros E.
  apply IH in E as (E1 & E2). apply values_first in V as (V1 & V2). split.
  - intros w. rewrite E1, V1, (aset_keys item_key_eqb item_key_iff). cbn [app map In fst]. rewrite map_app, in_app_iff, map_map. cbn [fst].
    fold (sightings ks). intuition congruence.
  - intros F. apply E2, V2. clear -F. induction F as [|[w x] m H F IH]; cbn [aset].
    + constructor; [reflexivity|constructor].
    + destruct (item_key_eqb _ w); constructor; auto.
Qed.
Lemma aget_listed w (m : reg_items) : aget item_key_eqb w m = None <-> ~ In w (map fst m).
Proof.
  induction m as [|[k x] m IH]; cbn [aget map fst In]; [tauto|]. destruct (item_key_eqb w k) eqn:E.
  - apply item_key_iff in E as ->. split; [discriminate|tauto].
  - rewrite IH. split; [|tauto]. intros X [->|Y]; [|tauto]. now rewrite (eqb_same item_key_eqb item_key_iff) in E.
Qed.
Lemma aget_found w (m : reg_items) it : aget item_key_eqb w m = Some it -> In (w, it) m.
Proof.
  induction m as [|[k x] m IH]; cbn [aget]; [discriminate|]. destruct (item_key_eqb w k) eqn:E.
  - apply item_key_iff in E as ->. intros [= ->]. now left.
  - intros X. right. auto.
Qed.
Lemma finish_history logs p p' b name :
  ps_file p = mkFI 4096 b -> ps_base_block p = Some (base_block_at b name) -> ps_recover p = true -> R (ps_state p) ->
  bytes_ok b -> 4096 <= len b -> bytes_at b 0 4 = REGF ->
  0 < num_at b 8 4 -> Forall (fun l => Forall entry_ok (tl_entries l)) logs ->
  (let* (items, p) := get_reg_items fuel p 0 in
   let* (sec, _) := base_block_info p in
   let* (n, p) := apply_logs order fuel sec logs 0 p items in
   update_header n p) = Ok p' -> grows (info p') told ->
  exists es k before prior, log_chain (num_at b 8 4) 0 logs es k /\ T (mkFI 4096 b) before prior /\ first_items before prior
    /\ ((exists b' after latest st' i, H (num_at b 40 4) (b, before, prior, ps_state p) es (b', after, latest, st')
         /\ patched k b' (ps_buffer p') /\ ps_state p' = set_info i st')
        \/ broken (num_at b 40 4) (b, before, prior, ps_state p) es).
Proof.
  intros F BB RC RR B L TG S LO E TO.
  destruct (get_reg_items fuel p 0) as [[items q]| | |] eqn:G; try discriminate.
  pose proof (get_reg_items_same _ _ _ _ _ G) as (G1 & G2 & G3). cbv beta iota in E.
  unfold base_block_info in E. rewrite G2, BB in E. cbv [or_panic] in E. cbv beta iota in E.
  cbn [base_block_at bb_base header_at bb_secondary_seq bb_hive_bins_data_size] in E.
  assert (X : exists p1 ks, init_root p = Ok p1 /\ iterate fuel p1 None false true false = Ok ks /\ ps_state q = ps_state p /\ insert_keys 0 ks [] = Ok items).
  { unfold get_reg_items in G. rewrite RC in G. destruct (init_root p) as [p1| | |] eqn:I; try discriminate. cbv beta iota in G.
    destruct (iterate _ _ _ _ _ _) as [ks| | |] eqn:A in G; try discriminate. cbv beta iota in G.
    destruct (insert_keys _ _ _) eqn:K in G; try discriminate. injection G as -> <-. exists p1, ks.
    split; [reflexivity|]. split; [exact A|]. split; [now apply init_root_state in I|exact K]. }
  destruct X as (p1 & ks & I & A & QS & IK).
  pose proof (taken_first order fuel full hash p p1 ks 0 items q RR RC I A G) as TK. rewrite F in TK.
  assert (FI1 : first_items ks items).
  { apply keys_first in IK as (IK1 & IK2). intros w. split.
    - rewrite aget_listed, IK1. cbn [map In]. tauto.
    - intros it AG. split; [|exact (proj2 (proj2 (taken_seen _ _ _ _ _ _ _ TK)) w it AG)].
      apply aget_found in AG. specialize (IK2 (Forall_nil _)). rewrite Forall_forall in IK2. exact (IK2 _ AG). }
  destruct (apply_logs order fuel (num_at b 8 4) logs 0 q items) as [[n p2]| | |] eqn:AL; try discriminate.
  cbv beta iota in E.
  assert (UO : Forall (fun l => Forall (fun e => u32 (le_seq e)) (tl_entries l)) logs).
  { eapply Forall_impl; [|exact LO]. intros l. apply Forall_impl. now intros e (? & _). }
  pose proof AL as A'.
  eapply apply_logs_spec with (bb := base_block_at b name) (hbins := num_at b 40 4) in A';
    [|congruence|reflexivity|reflexivity|exact S|exact UO|discriminate|discriminate].
  destruct A' as (es & m & C & [[? _]|(p3 & E3 & FI & OV & HB & B3 & R3)]); [discriminate|].
  injection E3 as <- <-.
  assert (QB : ps_buffer q = b) by (unfold ps_buffer; rewrite G1, F; reflexivity).
  assert (QH : ps_hbin q = 4096) by (unfold ps_hbin; rewrite G1, F; reflexivity).
  rewrite QB, QH in *.
  assert (M : at_moment (b, ks, items, ps_state p) q items).
  { split; [congruence|]. split; [reflexivity|]. split; [exact TK|]. split; [now rewrite QS|]. split; [congruence|].
    exists (st_info (ps_state p)). now rewrite set_info_id. }
  apply (logs_history _ (num_at b 40 4) (base_block_at b name) logs eq_refl eq_refl S UO _ _ _ _ _ _ (eq_trans G2 BB) M) in AL;
    [|exact (grows_trans _ _ _ (update_header_info _ _ _ E) TO)].
  destruct AL as (es' & k' & C' & AL). destruct (chain_functional _ _ _ _ _ _ _ C C') as [<- <-].
  exists es, n, ks, items. split; [exact C|]. split; [exact TK|]. split; [exact FI1|].
  destruct AL as [([[[b' af] lt] st'] & i' & HI & (M1 & M2 & M3 & M4 & M5 & j & M6))|BAD]; [left|now right].
  destruct (overlaid_header _ _ _ _ L OV) as [L2 H2].
  assert (EO : Forall entry_ok es) by (eapply chain_entries; eassumption).
  destruct (update_header_spec n p2) as (p4 & bb & E4 & P4 & H4 & B4 & BB4 & _).
  - destruct (chain_last _ _ _ _ _ C) as [->|[->|(e & In & ->)]]; try reflexivity.
    rewrite Forall_forall in EO. now destruct (EO _ In).
  - now apply (overlaid_bytes _ _ _ _ _ B EO OV).
  - exact L2.
  - rewrite <- TG. apply bytes_at_ext; try lia. intros i Hi. apply H2. lia.
  - rewrite E in E4. injection E4 as <-. apply header_info in E as (i & E).
    exists b', af, lt, st', i. split; [exact HI|]. split; [|now rewrite E, M6].
    replace b' with (ps_buffer p2); [exact P4|]. unfold ps_buffer. now rewrite M1.
Qed.
End Trace.
(** The whole build. *)
Section Whole.
Context (order : reg_items -> reg_items) (fuel : nat) (full : bool) (hash : list N -> N).
Lemma build_history buffer files logs w p :
  bytes_ok buffer -> Forall bytes_ok files -> known_file_type buffer -> checksum_right buffer ->
  num_at buffer 4 4 <> num_at buffer 8 4 -> 0 < num_at buffer 8 4 ->
  parse_logs files = Ok (logs, w) -> logs <> [] ->
  build order fuel hash true full buffer files = Ok p ->
  exists es k before prior st,
    log_chain (num_at buffer 8 4) 0 logs es k
    /\ reached order fuel full hash st /\ st_modified_keys st = [] /\ st_modified_values st = []
    /\ taken order fuel full hash (mkFI 4096 buffer) before prior /\ first_items before prior
    /\ ((exists b' after latest st' i, history order fuel full hash (num_at buffer 40 4) (st_info (ps_state p)) (buffer, before, prior, st) es (b', after, latest, st')
         /\ patched k b' (ps_buffer p) /\ ps_state p = set_info i st')
        \/ broken order fuel full hash (st_info (ps_state p)) (num_at buffer 40 4) (buffer, before, prior, st) es).
Proof.
  intros B BF K C D S PL NE. rewrite (build_split _ _ _ _ _ _ _ _ _ PL). unfold ps_init.
  set (p0 := start hash true full buffer).
  destruct (N.leb_spec 4096 (len buffer)) as [L|L].
  2:{ rewrite init_fails; [discriminate|]. change (ps_buffer p0) with buffer. lia. }
  destruct (list_eq_dec N.eq_dec (bytes_at buffer 0 4) REGF) as [TG|TG].
  2:{ rewrite init_fails; [discriminate|]. now intros [_ ?]. }
  destruct (init_base_block_spec p0 L TG) as (name & bad & p1 & E1 & E2 & F1 & B1 & R1 & _ & _ & _ & CB).
  pose proof (base_block_reached order fuel full hash p0 _ _ _ (reached_new _ _ _ _) E2) as RE.
  pose proof (base_info _ _ _ _ E2) as (i1 & S1).
  rewrite E2. change (ps_buffer p0) with buffer in *.
  assert (SU : is_supported (base_block_at buffer name) = true) by now apply supported_at.
  rewrite SU. cbv beta iota. apply (CB K) in C. subst bad.
  rewrite B1. cbn [or_panic]. cbv beta iota.
  destruct (find_free_keys_and_values _ _ _) as [st| | |] eqn:FF; try discriminate. cbv beta iota.
  pose proof (reached_scan _ _ _ _ _ _ _ _ RE FF) as RS. destruct (scan_modified _ _ _ _ FF) as (SM & SV).
  unfold apply_transaction_logs. destruct logs as [|l logs]; [congruence|].
  unfold prepare_logs. cbv beta iota. cbn [ps_set_state ps_base_block]. rewrite B1. cbn [or_panic].
  cbn [base_block_at bb_base header_at bb_primary_seq bb_secondary_seq].
  destruct (N.eqb_spec (num_at buffer 4 4) (num_at buffer 8 4)) as [|_]; [contradiction|]. cbv beta iota.
  match goal with |- context [get_reg_items fuel ?q 0] => set (p2 := q) end.
  destruct (let* (items, p) := get_reg_items fuel p2 0 in _) as [p3| | |] eqn:E4; try discriminate. cbv beta iota.
  destruct (init_root p3) as [p4| | |] eqn:E5; try discriminate.
  pose proof (init_root_state _ _ E5) as S5. apply init_root_same in E5 as (F4 & B4 & R4). intros [= <-].
  match goal with |- context [st_info ?x] => set (told := st_info x) end.
  assert (TO : grows (info p3) told) by (unfold told, info; cbn [ps_set_state ps_state set_info st_info]; rewrite S5; now eexists).
  apply (finish_history order fuel full hash told (l :: logs) p2 p3 buffer name) in E4; try assumption.
  2:{ now apply (parse_logs_ok files _ w). }
  destruct E4 as (es & k & bf & pr & CH & TK & FI1 & X).
  exists es, k, bf, pr, st. split; [exact CH|]. split; [exact RS|]. split; [rewrite SM, S1; reflexivity|]. split; [rewrite SV, S1; reflexivity|].
  split; [exact TK|]. split; [exact FI1|]. destruct X as [(b' & af & lt & st' & i & X1 & X2 & X3)|X]; [left|now right].
  exists b', af, lt, st'. cbn [ps_set_state ps_state]. rewrite S5, X3. eexists. split; [exact X1|]. split; [|reflexivity].
  unfold ps_buffer in *. cbn [ps_set_state ps_file]. now rewrite F4.
Qed.
End Whole.
