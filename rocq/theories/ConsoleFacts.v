(** What the console says (C82). *)
From Coq Require Import String.
From Verif Require Import Base LayoutSpec UtilSpec HeaderFacts Util BaseBlock Types Value Node Recover Parser TxLog TxSpec TxApply TxBuild LogFacts Log Export ExportSpec ExportFacts Json Dump Console ConsoleSpec.
Open Scope string_scope.
Open Scope N_scope.
Open Scope list_scope.

Lemma after_snd {A B} t (x : res A) (f : A -> list N * res B) : snd (after t x f) = (let* a := x in snd (f a)).
Proof. destruct x; try reflexivity. cbn [after]. now destruct (f a). Qed.
Lemma bind_same {A B} (x : res A) (f g : A -> res B) : (forall a, f a = g a) -> (let* a := x in f a) = (let* a := x in g a).
Proof. intros H. destruct x; auto. Qed.
Lemma pair_eta {A B} (x : A * B) : x = (fst x, snd x).
Proof. now destruct x. Qed.

(** ** The console changes nothing *)
Lemma told_entries_snd order fuel sec hb es : forall n p items i total,
  snd (told_entries order fuel sec hb es n p items i total) = update_entries order fuel sec hb es n p items.
Proof.
  induction es as [|e es IH]; intros n p items i total; cbn [told_entries update_entries]; [reflexivity|].
  destruct (le_valid_hashes e); [|reflexivity]. destruct (_ <? _); [rewrite after_snd; apply IH|].
  destruct (negb _); [reflexivity|]. destruct (negb _ && _); [reflexivity|].
  rewrite after_snd. cbv zeta. destruct (apply_pages _ _ _); try reflexivity. cbv beta iota.
  destruct (analyze_entry _ _ _ _ _ _) as [[it q]| | |]; try reflexivity. cbv beta iota. apply IH.
Qed.
Lemma told_parser_snd order fuel l p items : snd (told_parser order fuel l p items) = update_parser order fuel l p items.
Proof.
  unfold told_parser, update_parser. rewrite after_snd. apply bind_same. intros [s h].
  rewrite (pair_eta (told_entries _ _ _ _ _ _ _ _ _ _)). apply told_entries_snd.
Qed.
Lemma told_logs_snd order fuel sec logs : forall n p items i total,
  snd (told_logs order fuel sec logs n p items i total) = apply_logs order fuel sec logs n p items.
Proof.
  induction logs as [|l logs IH]; intros n p items i total; cbn [told_logs apply_logs]; [reflexivity|].
  destruct (sec <=? _); [|apply IH]. destruct (_ || _); [|apply IH].
  rewrite (pair_eta (told_parser _ _ _ _ _)), after_snd, told_parser_snd. apply bind_same. intros [[s it] q]. apply IH.
Qed.
Lemma told_transaction_logs_snd order fuel bad logs p :
  snd (told_transaction_logs order fuel bad logs p) = apply_transaction_logs order fuel bad logs p.
Proof.
  unfold told_transaction_logs, apply_transaction_logs. destruct logs as [|l logs]; [reflexivity|].
  rewrite after_snd. apply bind_same. intros [[[] q] ls]; [|reflexivity].
  rewrite after_snd. apply bind_same. intros [items q']. rewrite after_snd. apply bind_same. intros [s h].
  rewrite (pair_eta (told_logs _ _ _ _ _ _ _ _ _)), after_snd, told_logs_snd. apply bind_same. now intros [m r].
Qed.
Lemma told_init_snd order fuel recover logs p : snd (told_init order fuel recover logs p) = ps_init order fuel recover logs p.
Proof.
  unfold told_init, ps_init. rewrite after_snd. apply bind_same. intros [[[] bad] q]; [|reflexivity].
  rewrite after_snd. apply bind_same. intros q'.
  rewrite (pair_eta (told_transaction_logs _ _ _ _ _)), after_snd, told_transaction_logs_snd. now apply bind_same.
Qed.
Lemma told_build_snd order fuel hash recover full buffer files :
  snd (told_build order fuel hash recover full buffer files) = build order fuel hash recover full buffer files.
Proof.
  unfold told_build, build. rewrite after_snd. apply bind_same. intros [logs w]. cbv zeta.
  rewrite (pair_eta (told_init _ _ _ _ _)), after_snd, told_init_snd. now apply bind_same.
Qed.

(** ** Entries *)
Lemma fits_not m e : le_hbins_size e mod 4096 = 0 -> negb (m =? 0) && negb (le_seq e =? w32 (m + 1)) = true -> ~ fits m e.
Proof.
  intros S C [_ [F|F]]; apply andb_prop in C as [C1 C2]; apply negb_true_iff, N.eqb_neq in C1, C2; [contradiction|].
  apply C2. exact F.
Qed.
Lemma told_entries_text order fuel sec hb es : forall n p items i total r,
  snd (told_entries order fuel sec hb es n p items i total) = Ok r ->
  exists k, looked_at sec n es k (fst (fst r)) /\ counted total i k (fst (told_entries order fuel sec hb es n p items i total)) /\ (es <> [] -> 0 < k).
Proof.
  induction es as [|e es IH]; intros n p items i total r; cbn [told_entries].
  { intros [= <-]. exists 0. split; [constructor|]. split; [constructor|congruence]. }
  assert (ONE : forall q, looked_at sec n (e :: es) 1 n -> snd (say_entry i total, Ok (n, items, q)) = Ok r ->
    exists k, looked_at sec n (e :: es) k (fst (fst r)) /\ counted total i k (fst (say_entry i total, @Ok (N * reg_items * parser) (n, items, q))) /\ (e :: es <> [] -> 0 < k)).
  { intros q L [= <-]. exists 1. split; [exact L|]. split; [|lia]. cbn [fst]. unfold say_entry.
    pose proof (counted_one total i 0 (decimal i) (decimal total) [] (decimal_numeral i) (decimal_numeral total) (counted_none total _)) as C.
    rewrite app_nil_r in C. exact C. }
  assert (MORE : forall m q it, (forall k x, looked_at sec m es k x -> looked_at sec n (e :: es) (1 + k) x) ->
    snd (after (say_entry i total) (Ok tt) (fun _ => told_entries order fuel sec hb es m q it (i + 1) total)) = Ok r ->
    exists k, looked_at sec n (e :: es) k (fst (fst r))
      /\ counted total i k (fst (after (say_entry i total) (Ok tt) (fun _ => told_entries order fuel sec hb es m q it (i + 1) total))) /\ (e :: es <> [] -> 0 < k)).
  { intros m q it L E. cbn [after] in *. rewrite (pair_eta (told_entries _ _ _ _ _ _ _ _ _ _)) in E |- *. cbn [fst snd] in *. apply IH in E as (k & A & B & _).
    exists (1 + k). split; [now apply L|]. split; [|lia]. unfold say_entry. rewrite <- !app_assoc. constructor; [apply decimal_numeral..|exact B]. }
  destruct (le_valid_hashes e) eqn:V; [|apply ONE; now apply damaged].
  destruct (N.ltb_spec (le_seq e) sec) as [O|O]; [apply MORE; intros; now apply passed|].
  destruct (N.eqb_spec (le_hbins_size e mod 4096) 0) as [S|S]; cbn [negb]; [|apply ONE; apply unfit; try assumption; now intros [? _]].
  destruct (negb (n =? 0) && negb (le_seq e =? w32 (n + 1))) eqn:C; [apply ONE; apply unfit; try assumption; now apply fits_not|].
  cbv zeta. destruct (apply_pages _ _ _); try discriminate. cbv beta iota.
  destruct (analyze_entry _ _ _ _ _ _) as [[it q]| | |]; try discriminate. apply MORE. intros k x L. apply applied; try assumption.
  split; [exact S|]. apply andb_false_iff in C as [C|C]; apply negb_false_iff, N.eqb_eq in C; [now left|right; exact C].
Qed.

(** ** Logs *)
Lemma told_logs_text order fuel sec logs bb : forall n p items i total r,
  ps_base_block p = Some bb -> bb_secondary_seq (bb_base bb) = sec ->
  snd (told_logs order fuel sec logs n p items i total) = Ok r ->
  narrated sec total i n logs (fst (told_logs order fuel sec logs n p items i total)).
Proof.
  induction logs as [|l logs IH]; intros n p items i total r B S; cbn [told_logs]; [constructor|].
  destruct (N.leb_spec sec (log_primary l)) as [P|P].
  2:{ intros E. apply told_left_out; [now left|]. eapply IH; [exact B|exact S|exact E]. }
  destruct ((n =? 0) || (log_primary l =? w32 (n + 1))) eqn:Q.
  2:{ intros E. apply told_left_out; [|eapply IH; [exact B|exact S|exact E]].
      right. apply orb_false_iff in Q as [Q1 Q2]. apply N.eqb_neq in Q1, Q2. split; [exact Q1|exact Q2]. }
  unfold told_parser, base_block_info. rewrite B. cbn [or_panic]. rewrite S. cbn [after fst snd].
  pose proof (told_entries_snd order fuel sec (bb_hive_bins_data_size (bb_base bb)) (tl_entries l) 0 p items 1 (len (tl_entries l))) as W.
  pose proof (told_entries_text order fuel sec (bb_hive_bins_data_size (bb_base bb)) (tl_entries l) 0 p items 1 (len (tl_entries l))) as T.
  destruct (told_entries _ _ _ _ _ _ _ _ _ _) as [t y]. cbn [fst snd] in *.
  destruct y as [[[m it] q]| | |]; try discriminate. destruct (T _ eq_refl) as (k & K & C & _). cbn [fst snd after] in *.
  symmetry in W. apply update_entries_reports in W as (_ & B' & _). rewrite B in B'.
  rewrite (pair_eta (told_logs _ _ _ _ _ _ _ _ _)). cbn [fst snd]. intros E. apply (IH _ _ _ _ _ _ B' S) in E.
  assert (NL : match t with [] => [] | _ => [10] end = match k with 0 => [] | _ => [10] end :> list N).
  { inversion C; subst; [reflexivity|]. destruct (1 + k0) eqn:Z; [lia|reflexivity]. }
  unfold say_log. rewrite NL, <- !app_assoc. eapply told_log; try eassumption; try apply decimal_numeral.
  apply orb_prop in Q as [Q|Q]; apply N.eqb_eq in Q; [now left|now right].
Qed.

(** ** The whole opening *)
Lemma prepared_logs bad p l logs go q ls : prepare_logs bad p (l :: logs) = Ok (go, q, ls) ->
  (ls = l :: logs \/ bad = true /\ ls = logs) /\ (bad = false -> ps_base_block q = ps_base_block p) /\
  exists bb, ps_base_block q = Some bb /\ go = negb (bb_primary_seq (bb_base bb) =? bb_secondary_seq (bb_base bb)).
Proof.
  unfold prepare_logs. intros E.
  assert (X : exists q' ls', (if bad then handle_bad_checksum p (l :: logs) else Ok (p, l :: logs)) = Ok (q', ls') /\ (ls' = l :: logs \/ bad = true /\ ls' = logs)
     /\ (bad = false -> q' = p)).
  { destruct bad; [|eexists _, _; split; [reflexivity|]; now split; [left|]].
    destruct (handle_bad_checksum p (l :: logs)) as [[q' ls']| | |] eqn:H; try discriminate. exists q', ls'. split; [reflexivity|]. split; [|discriminate].
    unfold handle_bad_checksum in H. destruct (or_panic _); try discriminate. cbv beta iota in H. destruct (ok_or _); try discriminate. cbv beta iota in H.
    destruct (or_panic _); try discriminate. cbv beta iota zeta in H. destruct (init_base_block _) as [[[]]| | |]; try discriminate.
    injection H as <- <-. destruct (1 <? _); [right|left]; [split|]; reflexivity. }
  destruct X as (q' & ls' & X & L & B). rewrite X in E. cbv beta iota in E. destruct (ps_base_block q') as [bb|] eqn:Y; [|discriminate]. cbn [or_panic] in E. cbv beta iota in E.
  destruct (_ =? _) eqn:Z; injection E as <- <- <-; (split; [exact L|]); (split; [intros H; apply B in H; subst q'; first [exact Y|reflexivity]|]); exists bb; rewrite Z; split; try reflexivity; exact Y.
Qed.
Lemma told_some order fuel bad logs p r : snd (told_transaction_logs order fuel bad logs p) = Ok r ->
  fst (told_transaction_logs order fuel bad logs p) = []
  \/ exists sec ls, (ls = logs \/ bad = true /\ ls = tl logs) /\ narrated sec (len ls) 1 0 ls (fst (told_transaction_logs order fuel bad logs p))
     /\ (bad = false -> forall bb, ps_base_block p = Some bb -> sec = bb_secondary_seq (bb_base bb)).
Proof.
  unfold told_transaction_logs. destruct logs as [|l logs]; [now left|].
  destruct (prepare_logs _ _ _) as [[[go q] ls]| | |] eqn:E; try discriminate. apply prepared_logs in E as (L & K & bb & B & G).
  cbn [after]. destruct go; [|now left]. destruct (get_reg_items fuel q 0) as [[items q']| | |] eqn:R; try discriminate. cbn [after].
  apply get_reg_items_same in R as (_ & R & _). unfold base_block_info. rewrite R, B. cbn [or_panic after fst].
  pose proof (told_logs_text order fuel (bb_secondary_seq (bb_base bb)) ls bb 0 q' items 1 (len ls)) as T.
  destruct (told_logs _ _ _ _ _ _ _ _ _) as [t y]. destruct y as [[m r']| | |]; try discriminate. cbn [after fst snd app]. intros _.
  right. exists (bb_secondary_seq (bb_base bb)), ls. split; [exact L|]. split.
  - rewrite app_nil_r. apply (T (m, r')); [congruence|reflexivity..].
  - intros F bb' B'. rewrite (K F), B' in B. injection B as ->. reflexivity.
Qed.
Lemma told_none order fuel logs p bb : ps_base_block p = Some bb -> bb_primary_seq (bb_base bb) = bb_secondary_seq (bb_base bb) ->
  fst (told_transaction_logs order fuel false logs p) = [].
Proof.
  intros B S. unfold told_transaction_logs, prepare_logs. destruct logs; [reflexivity|]. cbv beta iota. rewrite B. cbn [or_panic]. rewrite S, N.eqb_refl. reflexivity.
Qed.
Lemma told_build_text order fuel hash recover full buffer files logs w p :
  parse_logs files = Ok (logs, w) -> build order fuel hash recover full buffer files = Ok p ->
  fst (told_build order fuel hash recover full buffer files) = []
  \/ exists sec ls, (ls = logs \/ ls = tl logs) /\ narrated sec (len ls) 1 0 ls (fst (told_build order fuel hash recover full buffer files)).
Proof.
  intros PL. rewrite <- told_build_snd. unfold told_build, told_init. rewrite PL. cbn [after].
  destruct (init_base_block _) as [[[s bad] p1]| | |]; try discriminate. cbn [after]. destruct s; [|now left].
  match goal with |- context [after [] ?x] => destruct x as [p2| | |] end; try discriminate. cbn [after].
  pose proof (told_some order fuel bad logs p2) as T. destruct (told_transaction_logs _ _ _ _ _) as [t y]. cbn [fst snd] in T.
  destruct y as [p3| | |]; try discriminate. specialize (T _ eq_refl). cbn [after app]. destruct (init_root p3); try discriminate. cbn [after fst snd app].
  rewrite !app_nil_r. intros _. destruct T as [T|(sec & ls & L & T & _)]; [now left|]. right. exists sec, ls. split; [tauto|exact T].
Qed.
Lemma told_build_init order fuel hash recover full buffer files logs w : parse_logs files = Ok (logs, w) -> known_file_type buffer -> checksum_right buffer ->
  fst (told_build order fuel hash recover full buffer files) = [] /\ (forall p, build order fuel hash recover full buffer files <> Ok p)
  \/ exists name p2, ps_base_block p2 = Some (base_block_at buffer name)
    /\ fst (told_build order fuel hash recover full buffer files) = fst (told_transaction_logs order fuel false logs p2)
    /\ (forall p, build order fuel hash recover full buffer files = Ok p -> exists q, snd (told_transaction_logs order fuel false logs p2) = Ok q).
Proof.
  intros PL K C. rewrite <- told_build_snd. unfold told_build, told_init. rewrite PL. cbn [after].
  set (p0 := mkParser _ _ _ _ _ _).
  destruct (N.leb_spec 4096 (len buffer)) as [L|L].
  2:{ left. rewrite init_fails; [split; [reflexivity|discriminate]|]. change (ps_buffer p0) with buffer. lia. }
  destruct (list_eq_dec N.eq_dec (bytes_at buffer 0 4) REGF) as [T|T].
  2:{ left. rewrite init_fails; [split; [reflexivity|discriminate]|]. now intros [_ ?]. }
  destruct (init_base_block_spec p0 L T) as (name & bad & p1 & E1 & E2 & F1 & B1 & R1 & _ & _ & _ & CB).
  rewrite E2. change (ps_buffer p0) with buffer in *.
  assert (SU : is_supported (base_block_at buffer name) = true) by now apply supported_at.
  rewrite SU. cbn [after]. apply (CB K) in C. subst bad.
  match goal with |- context [after [] ?x] => destruct x as [p2| | |] eqn:E3 end; try (left; split; [reflexivity|discriminate]).
  apply recover_same in E3 as (F2 & B2 & R2). right. exists name, p2. split; [congruence|]. cbn [after].
  destruct (told_transaction_logs _ _ _ _ _) as [t [p3| | |]]; cbn [after fst snd app]; try (split; [reflexivity|discriminate]).
  destruct (init_root p3); cbn [after fst snd app]; rewrite ?app_nil_r; (split; [reflexivity|]); try discriminate. intros _ _. now exists p3.
Qed.
Lemma told_dirty order fuel hash recover full buffer files logs w p :
  known_file_type buffer -> checksum_right buffer -> num_at buffer 4 4 <> num_at buffer 8 4 -> parse_logs files = Ok (logs, w) -> logs <> [] ->
  build order fuel hash recover full buffer files = Ok p ->
  narrated (num_at buffer 8 4) (len logs) 1 0 logs (fst (told_build order fuel hash recover full buffer files)).
Proof.
  intros K C D PL NE E. destruct (told_build_init order fuel hash recover full buffer files logs w PL K C) as [[_ H]|(name & p2 & B & -> & S)]; [now elim (H p)|].
  destruct (S _ E) as [q Q]. destruct logs as [|l logs]; [congruence|]. revert Q. unfold told_transaction_logs.
  destruct (prepare_logs _ _ _) as [[[go r] ls]| | |] eqn:P; try discriminate. apply prepared_logs in P as ([->|[? _]] & P & bb & B' & G); [|discriminate].
  rewrite (P eq_refl), B in B'. injection B' as <-. cbn [base_block_at bb_base header_at bb_primary_seq bb_secondary_seq] in G.
  destruct (N.eqb_spec (num_at buffer 4 4) (num_at buffer 8 4)) as [|_]; [contradiction|]. subst go. cbn [negb after].
  destruct (get_reg_items fuel r 0) as [[items q']| | |] eqn:R; try discriminate. cbn [after].
  apply get_reg_items_same in R as (_ & R & _). unfold base_block_info. rewrite R, (P eq_refl), B. cbn [or_panic after fst base_block_at bb_base header_at bb_secondary_seq].
  pose proof (told_logs_text order fuel (num_at buffer 8 4) (l :: logs) (base_block_at buffer name) 0 q' items 1 (len (l :: logs))) as T.
  destruct (told_logs _ _ _ _ _ _ _ _ _) as [t y]. destruct y as [[m r']| | |]; try discriminate. cbn [after fst snd app]. intros _.
  rewrite app_nil_r. apply (T (m, r')); [|reflexivity..]. rewrite R, (P eq_refl), B. reflexivity.
Qed.
Lemma told_clean order fuel hash recover full buffer files :
  known_file_type buffer -> checksum_right buffer -> num_at buffer 4 4 = num_at buffer 8 4 ->
  fst (told_build order fuel hash recover full buffer files) = [].
Proof.
  intros K C D. destruct (parse_logs files) as [[logs w]| | |] eqn:PL; try (unfold told_build; rewrite PL; reflexivity).
  destruct (told_build_init order fuel hash recover full buffer files logs w PL K C) as [[H _]|(name & p2 & B & -> & S)]; [exact H|].
  apply (told_none order fuel logs p2 _ B). exact D.
Qed.

(** ** The export *)
Lemma dots_are {A} (ks : list A) : forall i, exists d, dots i ks = repeat 46 (N.to_nat d) /\ d = (i + len ks + 999) / 1000 - (i + 999) / 1000.
Proof.
  induction ks as [|k ks IH]; intros i.
  { exists 0. split; [reflexivity|]. unfold len. cbn [length]. lia. }
  destruct (IH (i + 1)) as (d & E & D). cbn [dots]. rewrite E. unfold len in *. cbn [length].
  destruct (N.eqb_spec (i mod 1000) 0) as [M|M].
  - exists (1 + d). split; [replace (N.to_nat (1 + d)) with (S (N.to_nat d)) by lia; reflexivity|]. lia.
  - exists d. split; [reflexivity|]. lia.
Qed.
Lemma written_console o n c shown buffer logs out : ch_type c <> XlsxOut -> reg_dump o n c buffer logs = Written out ->
  exists p ks, build (os_order o) n (os_hash o) (ch_recover c) (ch_full c) buffer logs = Ok p /\ iterate n p (chosen_filter c) false true false = Ok ks
    /\ dump_console o n c shown buffer logs
       = (fst (told_build (os_order o) n (os_hash o) (ch_recover c) (ch_full c) buffer logs)
            ++ text "Writing file" ++ repeat 46 (N.to_nat ((len ks + 999) / 1000)) ++ [10] ++ text "Finished writing " ++ shown ++ [10], Ok tt).
Proof.
  intros T. unfold reg_dump, dump_console. rewrite <- told_build_snd.
  destruct (told_build _ _ _ _ _ _ _) as [t y]. cbn [fst snd]. destruct y as [p| | |]; try discriminate. intros W. exists p.
  assert (I : exists ks, iterate n p (chosen_filter c) false true false = Ok ks).
  { destruct (iterate n p (chosen_filter c) false true false) as [ks| | |] eqn:I; [now exists ks|..];
      revert W; cbv zeta; destruct (ch_type c); try congruence; unfold write_tsv, write_common, write_json; rewrite I; discriminate. }
  destruct I as [ks I]. exists ks. split; [reflexivity|]. split; [exact I|]. cbn [after]. rewrite I. cbn [after].
  destruct (dots_are ks 0) as (d & -> & ->). replace (0 + len ks + 999) with (len ks + 999) by lia. change ((0 + 999) / 1000) with 0. rewrite N.sub_0_r. reflexivity.
Qed.

(** ** Openings that fail *)
Definition not_ok {A} (x : res A) : Prop := forall a, x <> Ok a.
Lemma told_entries_fail order fuel sec hb es : forall n p items i total,
  not_ok (snd (told_entries order fuel sec hb es n p items i total)) ->
  exists k, begun sec n es k /\ counted total i k (fst (told_entries order fuel sec hb es n p items i total)).
Proof.
  induction es as [|e es IH]; intros n p items i total; cbn [told_entries].
  { intros H. now elim (H (n, items, p)). }
  assert (ONE : forall q (P : Prop), not_ok (snd (say_entry i total, @Ok (N * reg_items * parser) (n, items, q))) -> P) by (intros q P H; now elim (H (n, items, q))).
  assert (MORE : forall m q it, (forall k, begun sec m es k -> begun sec n (e :: es) (1 + k)) ->
    not_ok (snd (after (say_entry i total) (Ok tt) (fun _ => told_entries order fuel sec hb es m q it (i + 1) total))) ->
    exists k, begun sec n (e :: es) k
      /\ counted total i k (fst (after (say_entry i total) (Ok tt) (fun _ => told_entries order fuel sec hb es m q it (i + 1) total)))).
  { intros m q it L E. cbn [after] in *. rewrite (pair_eta (told_entries _ _ _ _ _ _ _ _ _ _)) in E |- *. cbn [fst snd] in *. apply IH in E as (k & A & B).
    exists (1 + k). split; [now apply L|]. unfold say_entry. rewrite <- !app_assoc. constructor; [apply decimal_numeral..|exact B]. }
  destruct (le_valid_hashes e) eqn:V; [|apply ONE].
  destruct (N.ltb_spec (le_seq e) sec) as [O|O]; [apply MORE; intros; now apply begun_passed|].
  destruct (N.eqb_spec (le_hbins_size e mod 4096) 0) as [S|S]; cbn [negb]; [|apply ONE].
  destruct (negb (n =? 0) && negb (le_seq e =? w32 (n + 1))) eqn:C; [apply ONE|].
  assert (F : fits n e).
  { split; [exact S|]. apply andb_false_iff in C as [C|C]; apply negb_false_iff, N.eqb_eq in C; [now left|right; exact C]. }
  assert (HERE : exists k, begun sec n (e :: es) k /\ counted total i k (say_entry i total)).
  { exists 1. split; [now apply begun_here|]. unfold say_entry.
    pose proof (counted_one total i 0 (decimal i) (decimal total) [] (decimal_numeral i) (decimal_numeral total) (counted_none total _)) as D.
    rewrite app_nil_r in D. exact D. }
  cbv zeta. destruct (apply_pages _ _ _); try (intros _; exact HERE). cbv beta iota.
  destruct (analyze_entry _ _ _ _ _ _) as [[it q]| | |]; try (intros _; exact HERE). apply MORE. intros k L. now apply begun_applied.
Qed.
Lemma told_logs_fail order fuel sec logs bb : forall n p items i total,
  ps_base_block p = Some bb -> bb_secondary_seq (bb_base bb) = sec ->
  not_ok (snd (told_logs order fuel sec logs n p items i total)) ->
  broken_off sec total i n logs (fst (told_logs order fuel sec logs n p items i total)).
Proof.
  induction logs as [|l logs IH]; intros n p items i total B S; cbn [told_logs]; [intros H; now elim (H (n, p))|].
  destruct (N.leb_spec sec (log_primary l)) as [P|P].
  2:{ intros E. apply broken_left_out; [now left|]. eapply IH; [exact B|exact S|exact E]. }
  destruct ((n =? 0) || (log_primary l =? w32 (n + 1))) eqn:Q.
  2:{ intros E. apply broken_left_out; [|eapply IH; [exact B|exact S|exact E]].
      right. apply orb_false_iff in Q as [Q1 Q2]. apply N.eqb_neq in Q1, Q2. split; [exact Q1|exact Q2]. }
  assert (Q' : n = 0 \/ log_primary l = (n + 1) mod 2 ^ 32) by (apply orb_prop in Q as [Q|Q]; apply N.eqb_eq in Q; [now left|now right]).
  unfold told_parser, base_block_info. rewrite B. cbn [or_panic]. rewrite S. cbn [after fst snd].
  pose proof (told_entries_snd order fuel sec (bb_hive_bins_data_size (bb_base bb)) (tl_entries l) 0 p items 1 (len (tl_entries l))) as W.
  pose proof (told_entries_text order fuel sec (bb_hive_bins_data_size (bb_base bb)) (tl_entries l) 0 p items 1 (len (tl_entries l))) as T.
  pose proof (told_entries_fail order fuel sec (bb_hive_bins_data_size (bb_base bb)) (tl_entries l) 0 p items 1 (len (tl_entries l))) as T'.
  destruct (told_entries _ _ _ _ _ _ _ _ _ _) as [t y]. cbn [fst snd] in *.
  assert (BAD : not_ok y -> broken_off sec total i n (l :: logs) (say_log i total ++ t ++ match t with [] => [] | _ => [10] end)).
  { intros H. destruct (T' H) as (k & K & C). assert (0 < k) by (inversion K; lia).
    replace (match t with [] => [] | _ => [10] end : list N) with ([10] : list N).
    - unfold say_log. rewrite <- !app_assoc. eapply broken_here; try eassumption; apply decimal_numeral.
    - inversion C; [lia|reflexivity]. }
  destruct y as [[[m it] q]| | |]; try (intros _; apply BAD; discriminate). destruct (T _ eq_refl) as (k & K & C & _). cbn [fst snd after] in *.
  symmetry in W. apply update_entries_reports in W as (_ & B' & _). rewrite B in B'.
  rewrite (pair_eta (told_logs _ _ _ _ _ _ _ _ _)). cbn [fst snd]. intros E. apply (IH _ _ _ _ _ B' S) in E.
  assert (NL : match t with [] => [] | _ => [10] end = match k with 0 => [] | _ => [10] end :> list N).
  { inversion C; subst; [reflexivity|]. destruct (1 + k0) eqn:Z; [lia|reflexivity]. }
  unfold say_log. rewrite NL, <- !app_assoc. eapply broken_later; try eassumption; apply decimal_numeral.
Qed.
Lemma told_any order fuel bad logs p :
  fst (told_transaction_logs order fuel bad logs p) = []
  \/ exists sec ls, (ls = logs \/ bad = true /\ ls = tl logs)
     /\ (narrated sec (len ls) 1 0 ls (fst (told_transaction_logs order fuel bad logs p)) \/ broken_off sec (len ls) 1 0 ls (fst (told_transaction_logs order fuel bad logs p)))
     /\ (bad = false -> forall bb, ps_base_block p = Some bb -> sec = bb_secondary_seq (bb_base bb)).
Proof.
  unfold told_transaction_logs. destruct logs as [|l logs]; [now left|].
  destruct (prepare_logs _ _ _) as [[[go q] ls]| | |] eqn:E; try now left. apply prepared_logs in E as (L & K & bb & B & G).
  cbn [after]. destruct go; [|now left]. destruct (get_reg_items fuel q 0) as [[items q']| | |] eqn:R; try now left. cbn [after].
  apply get_reg_items_same in R as (_ & R & _). unfold base_block_info. rewrite R, B. cbn [or_panic after fst].
  pose proof (told_logs_text order fuel (bb_secondary_seq (bb_base bb)) ls bb 0 q' items 1 (len ls)) as T.
  pose proof (told_logs_fail order fuel (bb_secondary_seq (bb_base bb)) ls bb 0 q' items 1 (len ls)) as T'.
  destruct (told_logs _ _ _ _ _ _ _ _ _) as [t y]. cbn [fst snd] in *.
  right. exists (bb_secondary_seq (bb_base bb)), ls. split; [exact L|]. split; [|intros F bb' B'; rewrite (K F), B' in B; injection B as ->; reflexivity].
  destruct y as [[m r']| | |]; cbn [after fst snd app].
  1: left; rewrite app_nil_r; apply (T (m, r')); [congruence|reflexivity..].
  all: right; apply T'; [congruence|reflexivity|discriminate].
Qed.
Lemma told_build_any order fuel hash recover full buffer files logs w : parse_logs files = Ok (logs, w) ->
  fst (told_build order fuel hash recover full buffer files) = []
  \/ exists sec ls, (ls = logs \/ ls = tl logs) /\ (narrated sec (len ls) 1 0 ls (fst (told_build order fuel hash recover full buffer files))
     \/ broken_off sec (len ls) 1 0 ls (fst (told_build order fuel hash recover full buffer files))).
Proof.
  intros PL. unfold told_build, told_init. rewrite PL. cbn [after].
  destruct (init_base_block _) as [[[s bad] p1]| | |]; try now left. cbn [after]. destruct s; [|now left].
  match goal with |- context [after [] ?x] => destruct x as [p2| | |] end; try now left. cbn [after].
  pose proof (told_any order fuel bad logs p2) as T. destruct (told_transaction_logs _ _ _ _ _) as [t y]. cbn [fst snd] in T.
  assert (X : t = [] \/ exists sec ls, (ls = logs \/ ls = tl logs) /\ (narrated sec (len ls) 1 0 ls t \/ broken_off sec (len ls) 1 0 ls t)).
  { destruct T as [T|(sec & ls & L & T & _)]; [now left|]. right. exists sec, ls. split; [tauto|exact T]. }
  destruct y as [p3| | |]; cbn [after app fst snd]; try exact X. destruct (init_root p3); cbn [after fst snd app]; rewrite ?app_nil_r; exact X.
Qed.
Lemma told_no_logs order fuel hash recover full buffer files : not_ok (parse_logs files) -> fst (told_build order fuel hash recover full buffer files) = [].
Proof. intros H. unfold told_build. destruct (parse_logs files) as [x| | |]; try reflexivity. now elim (H x). Qed.
Lemma told_right order fuel hash recover full buffer files logs w :
  known_file_type buffer -> checksum_right buffer -> parse_logs files = Ok (logs, w) ->
  fst (told_build order fuel hash recover full buffer files) = []
  \/ narrated (num_at buffer 8 4) (len logs) 1 0 logs (fst (told_build order fuel hash recover full buffer files))
  \/ broken_off (num_at buffer 8 4) (len logs) 1 0 logs (fst (told_build order fuel hash recover full buffer files)).
Proof.
  intros K C PL. destruct (told_build_init order fuel hash recover full buffer files logs w PL K C) as [[H _]|(name & p2 & B & -> & _)]; [now left|].
  destruct (told_any order fuel false logs p2) as [T|(sec & ls & [->|[? _]] & T & S)]; [now left| |discriminate].
  right. rewrite (S eq_refl _ B) in T. exact T.
Qed.
