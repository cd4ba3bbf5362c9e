(** Proofs about messages: histories of a collection, and that a build only adds
    to the diagnostics and reports every log entry it does not apply. *)
From Coq Require Import Permutation.
From Verif Require Import Base BaseFacts LayoutSpec LayoutFacts Util BaseBlock HeaderFacts Types Value Node Recover Parser TxLog TxSpec TxApply TxBuild NodeFrame Pure Log LogSpec.

Lemma history_app ops l : forall (P : Forall no_prefix ops), messages (log_history ops l) = messages l ++ brought ops.
Proof.
  revert l. induction ops as [|o ops IH]; intros l P; [symmetry; apply app_nil_r|].
  apply Forall_cons_iff in P as [P0 P]. cbn [log_history fold_left]. fold (log_history ops (log_step o l)). rewrite IH by exact P.
  cbn [brought flat_map]. rewrite app_assoc. f_equal. destruct o as [c t|x|t]; [..|contradiction].
  - now destruct l.
  - destruct l; reflexivity.
Qed.
Lemma same_refl' m : same_message m m. Proof. split; [reflexivity|now exists []]. Qed.
Lemma same_trans a b c : same_message a b -> same_message b c -> same_message a c.
Proof. intros [X [t T]] [Y [u U]]. split; [congruence|]. exists (u ++ t). now rewrite U, T, app_assoc. Qed.
Lemma forall2_same l : Forall2 same_message l l.
Proof. induction l; constructor; [apply same_refl'|assumption]. Qed.
Lemma history_kept ops : forall l, Forall2 same_message (messages l ++ brought ops) (messages (log_history ops l)).
Proof.
  induction ops as [|o ops IH]; intros l; [cbn; rewrite app_nil_r; apply forall2_same|].
  cbn [log_history fold_left brought flat_map]. fold (log_history ops (log_step o l)). specialize (IH (log_step o l)).
  assert (S : Forall2 same_message (messages l ++ brings o) (messages (log_step o l))).
  { destruct o as [c t|x|t].
    - destruct l; apply forall2_same.
    - destruct l; apply forall2_same.
    - cbn [brings log_step]. rewrite app_nil_r. destruct l as [ms|]; [|constructor]. cbn [prepend_all option_map messages].
      clear IH. induction ms as [|x ms IH]; cbn [map]; constructor; [split; [reflexivity|now exists t]|exact IH]. }
  rewrite app_assoc. fold (brought ops).
  assert (T : Forall2 same_message ((messages l ++ brings o) ++ brought ops) (messages (log_step o l) ++ brought ops)).
  { apply Forall2_app; [exact S|apply forall2_same]. }
  clear S. revert T IH. generalize (messages (log_step o l) ++ brought ops), ((messages l ++ brings o) ++ brought ops), (messages (log_history ops (log_step o l))).
  intros b a c. revert a c. induction b as [|x b I]; intros a c T U; inversion T; subst; inversion U; subst; constructor.
  - eapply same_trans; eassumption.
  - now apply I.
Qed.

(** ** Written messages *)
Lemma cut_unique (x : N) a : forall a' b b', ~ In x a -> ~ In x a' -> a ++ x :: b = a' ++ x :: b' -> a = a' /\ b = b'.
Proof.
  induction a as [|y a IH]; intros [|y' a'] b b' A A' E; cbn [app] in E.
  - now injection E.
  - injection E as -> _. exfalso. apply A'. now left.
  - injection E as -> _. exfalso. apply A. now left.
  - injection E as -> E. apply IH in E as (-> & ->); [now split|..]; intros I; [apply A|apply A']; now right.
Qed.
Lemma code_no_space c : ~ In 32 (code_name c).
Proof. destruct c; vm_compute; intros H; repeat (destruct H as [H|H]; [discriminate H|]); exact H. Qed.
Lemma code_inj c c' : code_name c = code_name c' -> c = c'.
Proof. destruct c, c'; try reflexivity; vm_compute; discriminate. Qed.
Lemma shown_inj (x : N) ms : forall ms', Forall (fun m => ~ In x (mg_text m)) ms -> Forall (fun m => ~ In x (mg_text m)) ms' ->
  flat_map (fun m => code_name (mg_code m) ++ [32] ++ mg_text m ++ [x]) ms = flat_map (fun m => code_name (mg_code m) ++ [32] ++ mg_text m ++ [x]) ms' -> ms = ms'.
Proof.
  assert (NE : forall c (r : list N), code_name c ++ r <> []) by (intros c r; destruct c; discriminate).
  induction ms as [|[c t] ms IH]; intros [|[c' t'] ms'] F F'; cbn [flat_map mg_code mg_text]; [reflexivity|..].
  - intros E. exfalso. revert E. rewrite <- app_assoc. intros E. now apply (NE c' _ (eq_sym E)).
  - rewrite <- app_assoc. intros E. now apply NE in E.
  - inversion F; subst. inversion F'; subst. cbn [mg_text] in *. rewrite <- !app_assoc. cbn [app]. intros E.
    apply cut_unique in E as (E1 & E); try apply code_no_space. apply code_inj in E1 as ->.
    apply cut_unique in E as (-> & E); try assumption. f_equal. now apply IH.
Qed.
Lemma written_inj l l' : Forall (fun m => ~ In 10 (mg_text m)) (messages l) -> Forall (fun m => ~ In 10 (mg_text m)) (messages l') ->
  logs_write l = logs_write l' -> messages l = messages l'.
Proof. apply (shown_inj 10). Qed.
Lemma string_inj l l' : Forall (fun m => ~ In 59 (mg_text m)) (messages l) -> Forall (fun m => ~ In 59 (mg_text m)) (messages l') ->
  logs_string l = logs_string l' -> messages l = messages l'.
Proof. apply (shown_inj 59). Qed.

(** How they are written. *)
Lemma code_worded c : code_name c = code_word c. Proof. now destruct c. Qed.
Lemma written_lines l : logs_write l = flat_map (fun m => message_text m ++ [10]) (messages l).
Proof.
  unfold logs_write. change (or_default l) with (messages l). induction (messages l) as [|m ms IH]; [reflexivity|]. cbn [flat_map]. rewrite IH. f_equal.
  unfold message_text. now rewrite code_worded, <- !app_assoc.
Qed.
Lemma string_lines l : logs_string l = flat_map (fun m => message_text m ++ [59]) (messages l).
Proof.
  unfold logs_string. change (or_default l) with (messages l). induction (messages l) as [|m ms IH]; [reflexivity|]. cbn [flat_map]. rewrite IH. f_equal.
  unfold message_text. now rewrite code_worded, <- !app_assoc.
Qed.

(** ** Builds *)
Notation grows := kept_before.
Lemma grows_refl a : grows a a. Proof. exists []. symmetry. apply app_nil_r. Qed.
Lemma grows_trans a b c : grows a b -> grows b c -> grows a c.
Proof. intros [r ->] [s ->]. exists (r ++ s). now rewrite app_assoc. Qed.
Lemma grows_in a b w : grows a b -> In w a -> In w b.
Proof. intros [r ->] I. apply in_or_app. now left. Qed.
Definition info (p : parser) : list log_code := st_info (ps_state p).
Lemma grows_log c p : grows (info p) (info (ps_log c p)). Proof. now exists [c]. Qed.
Lemma in_log c p : In c (info (ps_log c p)). Proof. apply in_or_app. right. now left. Qed.
Lemma root_info st st' : root_only st st' -> st_info st' = st_info st.
Proof. intros R. unfold root_only in R. now rewrite R. Qed.
Lemma root_kept_info p p' : init_root p = Ok p' -> info p' = info p.
Proof.
  unfold init_root. destruct (get_from (ps_buffer p) (ps_hbin p)) as [i|]; [|discriminate]. cbn [ok_or].
  destruct (hbin_from_bytes (ps_hbin p) i) as [[h rest]| | |]; try discriminate. cbv beta iota.
  match goal with |- match ?x with _ => _ end = _ -> _ => destruct x as [[root st]| | |] eqn:K; try discriminate end.
  cbv beta iota. intros [= <-]. apply kn_read_state, root_info in K. exact K.
Qed.
Lemma add_full_key_info fi n st path off s d st' : add_full_key fi n st path off s d = Ok st' -> st_info st' = st_info st.
Proof.
  unfold add_full_key. destruct (kn_read _ _ _) as [[k st1]| | |] eqn:K; try discriminate. apply kn_read_state, root_info in K.
  cbv beta iota. destruct k; [destruct d|]; intros [= <-]; exact K.
Qed.
Lemma add_full_value_info fi n st path off s d st' : add_full_value fi n st path off s d = Ok st' -> st_info st' = st_info st.
Proof.
  unfold add_full_value. destruct (get_from _ _); [|discriminate]. cbn [ok_or].
  destruct (kv_from_bytes _ _ _ _) as [[v r]| | |]; try discriminate. cbv beta iota zeta. destruct d; intros [= <-]; reflexivity.
Qed.
Lemma add_all_info {A} (f : state -> A -> res state) l : (forall st x st', f st x = Ok st' -> st_info st' = st_info st) ->
  forall st lg st' lg', add_all f l st lg = Ok (st', lg') -> st_info st' = st_info st.
Proof.
  intros F. induction l as [|x l IH]; intros st lg st' lg' E; cbn [add_all] in E; [congruence|].
  destruct (f st x) as [s| | |] eqn:X; try discriminate.
  - apply IH in E. rewrite E. now apply F in X.
  - now apply IH in E.
Qed.
Lemma remove_latest_info l : forall st, st_info (fold_left remove_latest l st) = st_info st.
Proof. induction l as [|e l IH]; intros st; [reflexivity|]. cbn [fold_left]. rewrite IH. unfold remove_latest. now destruct (snd (fst e)). Qed.
Lemma latest_info order fuel fi n p prior latest p' lg :
  get_latest_reg_items order fuel fi n p prior = Ok (latest, p', lg) -> info p' = info p.
Proof.
  unfold get_latest_reg_items. destruct (init_root p) as [p1| | |] eqn:I; try discriminate. cbv beta iota.
  apply root_kept_info in I. destruct (iterate _ _ _ _ _ _) as [ks| | |]; try discriminate. cbv beta iota.
  destruct (handle_keys _ _ _ _ _ _ _) as [[[[[pr lt] nk] nv] l0]| | |]; try discriminate. cbv beta iota.
  match goal with |- match ?x with _ => _ end = _ -> _ => destruct x as [[st1 l1]| | |] eqn:A; try discriminate end. cbv beta iota.
  match goal with |- match ?x with _ => _ end = _ -> _ => destruct x as [[st2 l2]| | |] eqn:B; try discriminate end. cbv beta iota.
  match goal with |- match ?x with _ => _ end = _ -> _ => destruct x as [[st3 l3]| | |] eqn:C; try discriminate end. cbv beta iota zeta.
  intros [= _ <- _]. unfold info. cbn [ps_set_state ps_state]. rewrite remove_latest_info.
  apply add_all_info in C; [|intros st [[q [nm|]] it] st' X; [now apply add_full_value_info in X|now apply add_full_key_info in X]].
  apply add_all_info in B; [|intros st x st' X; now apply add_full_value_info in X].
  apply add_all_info in A; [|intros st x st' X; now apply add_full_key_info in X].
  rewrite C, B, A. exact I.
Qed.
Lemma analyze_info order fuel fi n p items items' p' : analyze_entry order fuel fi n p items = Ok (items', p') -> grows (info p) (info p').
Proof.
  unfold analyze_entry. destruct (ps_recover p); [|intros [= _ <-]; apply grows_refl].
  destruct (get_latest_reg_items _ _ _ _ _ _) as [[[lt q] lg]| | |] eqn:G; try discriminate.
  - intros [= _ <-]. apply latest_info in G. unfold info in *. cbn [ps_set_state ps_state set_info st_info]. rewrite G. now exists lg.
  - intros [= _ <-]. apply grows_log.
Qed.
Lemma base_block_info_grows p x p' : init_base_block p = Ok (x, p') -> grows (info p) (info p').
Proof.
  unfold init_base_block. destruct (bb_from_bytes (ps_buffer p)) as [[b rest]| | |]; try discriminate. cbv beta iota zeta.
  unfold check_base_block. destruct (is_supported b); [|intros [= _ <-]; now eexists].
  cbv zeta. set (q := ps_set_base_block _ _). set (q' := if _ =? _ then q else _).
  assert (Q : grows (info p) (info q')) by (subst q'; destruct (_ =? _); [apply grows_refl|now eexists]).
  destruct (get_range (ps_buffer q') 0 512) as [h|]; [|discriminate]. cbn [or_panic]. destruct (calculate_checksum h) as [c| | |]; try discriminate.
  cbv beta iota. destruct (c =? _); intros [= _ <-]; [exact Q|]. eapply grows_trans; [exact Q|apply grows_log].
Qed.

(** ** Entries that are not applied *)
Definition reported (p : parser) : Prop := In WarningTransactionLog (info p).
(** All of [es] can be applied after the number [n]. *)
Fixpoint follows (sec n : N) (es : list log_entry) : Prop :=
  match es with
  | [] => True
  | e :: r => le_valid_hashes e = true /\ sec <= le_seq e /\ le_hbins_size e mod 4096 = 0
              /\ (n = 0 \/ le_seq e = w32 (n + 1)) /\ follows sec (le_seq e) r
  end.
Lemma update_entries_reports order fuel sec hbins es : forall n p items n' items' p',
  update_entries order fuel sec hbins es n p items = Ok (n', items', p') ->
  grows (info p) (info p') /\ ps_base_block p' = ps_base_block p
  /\ (reported p' \/ follows sec n es /\ n' = last_from n es).
Proof.
  induction es as [|e es IH]; intros n p items n' items' p' E; cbn [update_entries] in E.
  { injection E as <- <- <-. split; [apply grows_refl|]. split; [reflexivity|right; split; [exact I|reflexivity]]. }
  assert (STOP : Ok (n, items, ps_log WarningTransactionLog p) = Ok (n', items', p') ->
    grows (info p) (info p') /\ ps_base_block p' = ps_base_block p
    /\ (reported p' \/ follows sec n (e :: es) /\ n' = last_from n (e :: es))).
  { intros [= <- <- <-]. split; [apply grows_log|]. split; [reflexivity|left; apply in_log]. }
  destruct (le_valid_hashes e) eqn:V; [|exact (STOP E)].
  destruct (N.ltb_spec (le_seq e) sec) as [L|L].
  { apply IH in E as (G & B & _). pose proof (grows_log WarningTransactionLog p) as G0. split; [eapply grows_trans; eassumption|].
    split; [exact B|]. left. exact (grows_in _ _ _ G (in_log _ p)). }
  destruct (N.eqb_spec (le_hbins_size e mod 4096) 0) as [M|M]; cbn [negb] in E; [|exact (STOP E)].
  destruct (negb (n =? 0) && negb (le_seq e =? w32 (n + 1))) eqn:C; [exact (STOP E)|].
  destruct (apply_pages _ _ _) as [b| | |]; try discriminate. cbv beta iota in E.
  destruct (analyze_entry _ _ _ _ _ _) as [[it q]| | |] eqn:A; try discriminate. cbv beta iota in E.
  pose proof A as A'. apply analyze_info in A. apply analyze_same in A' as (_ & A' & _).
  apply IH in E as (G & B & R). split; [eapply grows_trans; [exact A|exact G]|].
  split; [rewrite B, A'; reflexivity|].
  destruct R as [R|[R ->]]; [now left|right]. split; [|reflexivity]. cbn [follows]. repeat split; try assumption.
  apply andb_false_iff in C as [C|C]; apply negb_false_iff, N.eqb_eq in C; auto.
Qed.
Lemma follows_trusted sec es : forall n, follows sec n es -> trusted es = es.
Proof. induction es as [|e es IH]; intros n F; [reflexivity|]. destruct F as (V & _ & _ & _ & F). cbn [trusted]. rewrite V. f_equal. now apply IH in F. Qed.
Lemma follows_fresh sec es : forall n, follows sec n es -> fresh sec es = es.
Proof.
  intros n F. unfold fresh. rewrite (follows_trusted _ _ _ F). revert n F. induction es as [|e es IH]; intros n F; [reflexivity|].
  destruct F as (V & L & _ & _ & F). cbn [List.filter]. apply N.leb_le in L. rewrite L. f_equal. now apply IH in F.
Qed.
Lemma follows_consecutive sec es : 0 < sec -> Forall (fun e => u32 (le_seq e)) es -> forall n, follows sec n es -> consecutive es.
Proof.
  intros Z U. induction U as [|e es U0 U IH]; intros n F; [exact I|]. destruct F as (V & L & _ & _ & F). pose proof F as F'. apply IH in F.
  destruct es as [|e2 es]; [exact I|]. split; [|exact F]. destruct F' as (_ & L2 & _ & [C|C] & _).
  - rewrite C in L. lia.
  - apply Forall_cons_iff in U as [U2 _]. unfold u32 in *. unfold w32 in C. change (2 ^ 32) with 4294967296 in *. change 0x100000000 with 4294967296 in *. lia.
Qed.
Lemma follows_applied sec es : 0 < sec -> Forall (fun e => u32 (le_seq e)) es -> forall n, follows sec n es -> applied sec es es.
Proof.
  intros Z U n F. exists []. rewrite app_nil_r, (follows_fresh _ _ _ F). split; [reflexivity|]. split; [|split; [now apply (follows_consecutive sec es Z U n)|exact I]].
  clear Z U. revert n F. induction es as [|e es IH]; intros n F; constructor; [now destruct F as (_ & _ & S & _)|]. destruct F as (_ & _ & _ & _ & F). now apply IH in F.
Qed.

Lemma apply_logs_reports order fuel sec logs bb : forall n p items n' p',
  ps_base_block p = Some bb -> bb_secondary_seq (bb_base bb) = sec -> 0 < sec ->
  Forall (fun l => Forall (fun e => u32 (le_seq e)) (tl_entries l)) logs ->
  apply_logs order fuel sec logs n p items = Ok (n', p') ->
  grows (info p) (info p') /\ (reported p' \/ log_chain sec n logs (flat_map tl_entries logs) n').
Proof.
  induction logs as [|l logs IH]; intros n p items n' p' B S Z U E; cbn [apply_logs] in E.
  { injection E as <- <-. split; [apply grows_refl|right; constructor]. }
  apply Forall_cons_iff in U as [U0 U].
  assert (SKIP : apply_logs order fuel sec logs n (ps_log WarningTransactionLog p) items = Ok (n', p') ->
    grows (info p) (info p') /\ (reported p' \/ log_chain sec n (l :: logs) (flat_map tl_entries (l :: logs)) n')).
  { intros F. apply IH in F as [G _]; try assumption. pose proof (grows_log WarningTransactionLog p) as G0.
    split; [eapply grows_trans; eassumption|]. left. exact (grows_in _ _ _ G (in_log _ p)). }
  destruct (N.leb_spec sec (log_primary l)) as [P|P]; [|exact (SKIP E)].
  destruct ((n =? 0) || (log_primary l =? w32 (n + 1))) eqn:Q; [|exact (SKIP E)]. clear SKIP.
  unfold update_parser, base_block_info in E. rewrite B in E. cbn [or_panic] in E. rewrite S in E.
  destruct (update_entries _ _ _ _ _ _ _ _) as [[[k it] q]| | |] eqn:W; try discriminate. cbv beta iota in E.
  apply update_entries_reports in W as (G & B' & R). apply IH in E as [G' R']; [|rewrite B'; exact B|exact S|exact Z|exact U].
  split; [eapply grows_trans; eassumption|]. destruct R as [R|[F ->]]; [left; exact (grows_in _ _ _ G' R)|].
  destruct R' as [R'|R']; [now left|right]. cbn [flat_map]. apply chain_use.
  - split; [exact P|]. apply orb_prop in Q as [Q|Q]; apply N.eqb_eq in Q; [now left|now right].
  - now apply (follows_applied sec (tl_entries l) Z U0 0).
  - unfold last_seq. rewrite <- last_from_last. exact R'.
Qed.
Lemma get_reg_items_info fuel p n i p' : get_reg_items fuel p n = Ok (i, p') -> info p' = info p.
Proof.
  unfold get_reg_items. destruct (ps_recover p); [|now intros [= _ <-]].
  destruct (init_root p) as [p1| | |] eqn:E; try discriminate. apply root_kept_info in E. cbv beta iota.
  destruct (iterate _ _ _ _ _ _); try discriminate. cbv beta iota. destruct (insert_keys _ _ _); try discriminate.
  cbv beta iota. intros [= _ <-]. exact E.
Qed.
Lemma update_header_info n p p' : update_header n p = Ok p' -> grows (info p) (info p').
Proof.
  unfold update_header.
  destruct (overwrite (ps_buffer p) 4 _) as [b1|]; [|discriminate]. cbn [or_panic].
  destruct (overwrite b1 8 _) as [b2|]; [|discriminate]. cbn [or_panic].
  destruct (get_range b2 0 512) as [h|]; [|discriminate]. cbn [or_panic].
  destruct (calculate_checksum h) as [c| | |]; try discriminate. cbv beta iota.
  destruct (overwrite b2 _ _) as [b3|]; [|discriminate]. cbn [or_panic].
  destruct (init_base_block _) as [[x q]| | |] eqn:E; try discriminate. cbv beta iota. destruct x. intros [= <-].
  apply base_block_info_grows in E. eapply grows_trans; [exact E|apply grows_log].
Qed.
Lemma transaction_logs_report order fuel l logs p p' bb : ps_base_block p = Some bb ->
  let sec := bb_secondary_seq (bb_base bb) in
  (bb_primary_seq (bb_base bb) <> sec -> 0 < sec) ->
  Forall (fun l => Forall (fun e => u32 (le_seq e)) (tl_entries l)) (l :: logs) ->
  apply_transaction_logs order fuel false (l :: logs) p = Ok p' ->
  reported p' \/ (bb_primary_seq (bb_base bb) <> sec /\ exists m, log_chain sec 0 (l :: logs) (flat_map tl_entries (l :: logs)) m).
Proof.
  intros B sec Z U. unfold apply_transaction_logs, prepare_logs. cbv beta iota. rewrite B. cbn [or_panic].
  subst sec. destruct (N.eqb_spec (bb_primary_seq (bb_base bb)) (bb_secondary_seq (bb_base bb))) as [D|D]; cbv beta iota.
  { intros [= <-]. left. apply in_log. }
  destruct (get_reg_items fuel p 0) as [[items q]| | |] eqn:G; try discriminate. cbv beta iota.
  pose proof G as G'. apply get_reg_items_info in G. apply get_reg_items_same in G' as (_ & B' & _).
  unfold base_block_info. rewrite B', B. cbn [or_panic].
  destruct (apply_logs _ _ _ _ _ _ _) as [[n p2]| | |] eqn:A; try discriminate. cbv beta iota. intros H.
  apply update_header_info in H. eapply apply_logs_reports in A as [_ R]; [|rewrite B'; exact B|reflexivity|now apply Z|exact U].
  destruct R as [R|R]; [left; exact (grows_in _ _ _ H R)|right]. split; [exact D|]. now exists n.
Qed.
Lemma build_reports order fuel hash recover full buffer files logs w p :
  bytes_ok buffer -> Forall bytes_ok files -> known_file_type buffer -> checksum_right buffer ->
  (num_at buffer 4 4 <> num_at buffer 8 4 -> 0 < num_at buffer 8 4) ->
  parse_logs files = Ok (logs, w) -> logs <> [] ->
  build order fuel hash recover full buffer files = Ok p ->
  reported p \/ (num_at buffer 4 4 <> num_at buffer 8 4
                 /\ exists m, log_chain (num_at buffer 8 4) 0 logs (flat_map tl_entries logs) m).
Proof.
  intros B BF K C S PL NE. rewrite (build_split _ _ _ _ _ _ _ _ _ PL). unfold ps_init.
  set (p0 := start hash recover full buffer).
  destruct (N.leb_spec 4096 (len buffer)) as [L|L].
  2:{ rewrite init_fails; [discriminate|]. change (ps_buffer p0) with buffer. lia. }
  destruct (list_eq_dec N.eq_dec (bytes_at buffer 0 4) REGF) as [T|T].
  2:{ rewrite init_fails; [discriminate|]. now intros [_ ?]. }
  destruct (init_base_block_spec p0 L T) as (name & bad & p1 & E1 & E2 & F1 & B1 & R1 & _ & _ & _ & CB).
  rewrite E2. change (ps_buffer p0) with buffer in *.
  assert (SU : is_supported (base_block_at buffer name) = true) by now apply supported_at.
  rewrite SU. cbv beta iota. apply (CB K) in C. subst bad.
  match goal with |- (let* p := (let* q := ?x in _) in _) = _ -> _ => destruct x as [p2| | |] eqn:E3; try discriminate end.
  apply recover_same in E3 as (F2 & B2 & R2). cbv beta iota.
  destruct logs as [|l logs]; [congruence|].
  destruct (apply_transaction_logs _ _ _ _ _) as [p3| | |] eqn:E4; try discriminate. cbv beta iota.
  assert (U : Forall (fun l => Forall (fun e => u32 (le_seq e)) (tl_entries l)) (l :: logs)).
  { apply parse_logs_ok in PL as [_ PL]; [|exact BF]. eapply Forall_impl; [|exact PL]. intros x. apply Forall_impl. now intros e (? & _). }
  eapply transaction_logs_report in E4; [|rewrite B2; exact B1|exact S|exact U].
  destruct (init_root p3) as [p4| | |] eqn:E5; try discriminate. apply root_kept_info in E5. intros [= <-].
  destruct E4 as [R|R]; [left|now right]. unfold reported. apply in_or_app. left. change (In WarningTransactionLog (info p4)).
  rewrite E5. exact R.
Qed.
Lemma parse_each_count files : forall ls w, parse_each files = Ok (ls, w) ->
  len files = len ls + len w /\ Forall (eq WarningParse) w.
Proof.
  assert (SK : forall (f : list N) files ls w, (forall ls w, parse_each files = Ok (ls, w) -> len files = len ls + len w /\ Forall (eq WarningParse) w) ->
    (let* (ls, w) := parse_each files in Ok (ls, WarningParse :: w)) = Ok (ls, w) ->
    len (f :: files) = len ls + len w /\ Forall (eq WarningParse) w).
  { intros f fs ls w IH. destruct (parse_each fs) as [[ls' w']| | |]; try discriminate. cbv beta iota. intros [= <- <-].
    destruct (IH _ _ eq_refl) as [E F]. rewrite !len_cons. split; [lia|]. now constructor. }
  induction files as [|f files IH]; intros ls w; cbn [parse_each].
  { intros [= <- <-]. split; [reflexivity|constructor]. }
  assert (TK : match log_from_bytes f with
      | Ok l => let* (ls, w) := parse_each files in Ok (l :: ls, w)
      | Err => let* (ls, w) := parse_each files in Ok (ls, WarningParse :: w)
      | Panic => Panic
      | OutOfFuel => OutOfFuel
      end = Ok (ls, w) -> len (f :: files) = len ls + len w /\ Forall (eq WarningParse) w).
  { destruct (log_from_bytes f) as [l| | |]; try discriminate; [|apply SK, IH].
    destruct (parse_each files) as [[ls' w']| | |]; try discriminate. cbv beta iota. intros [= <- <-].
    destruct (IH _ _ eq_refl) as [E F]. rewrite !len_cons. split; [lia|exact F]. }
  destruct f; [apply SK, IH|exact TK].
Qed.
Lemma unread_logs order fuel hash recover full buffer files logs w p :
  parse_logs files = Ok (logs, w) -> build order fuel hash recover full buffer files = Ok p ->
  exists before, st_info (ps_state p) = before ++ repeat WarningParse (length files - length logs).
Proof.
  intros PL. rewrite (build_split _ _ _ _ _ _ _ _ _ PL). destruct (ps_init _ _ _ _ _) as [q| | |]; try discriminate.
  cbv beta iota. intros [= <-]. exists (info q). cbn [ps_set_state ps_state set_info st_info]. f_equal.
  unfold parse_logs in PL. destruct (parse_each files) as [[ls w']| | |] eqn:E; try discriminate. cbv beta iota in PL. injection PL as <- <-.
  apply parse_each_count in E as [E F]. unfold len in E.
  rewrite (Permutation_length (sort_perm _ ls)). replace (length files - length ls)%nat with (length w') by lia.
  clear E. induction F as [|x w' <- F IH]; [reflexivity|]. cbn [length repeat]. now f_equal.
Qed.
Lemma dirty_reports order fuel hash recover full buffer files logs w p es m :
  bytes_ok buffer -> Forall bytes_ok files -> known_file_type buffer -> checksum_right buffer ->
  num_at buffer 4 4 <> num_at buffer 8 4 -> 0 < num_at buffer 8 4 ->
  parse_logs files = Ok (logs, w) -> logs <> [] ->
  build order fuel hash recover full buffer files = Ok p ->
  log_chain (num_at buffer 8 4) 0 logs es m ->
  es = flat_map tl_entries logs \/ In WarningTransactionLog (st_info (ps_state p)).
Proof.
  intros B BF K C D Z PL NE E H. eapply build_reports in E; try eassumption; [|intros _; exact Z].
  destruct E as [E|(_ & m' & E)]; [now right|left]. now destruct (chain_functional _ _ _ _ _ _ _ H E).
Qed.
Lemma clean_reports order fuel hash recover full buffer files logs w p :
  bytes_ok buffer -> Forall bytes_ok files -> known_file_type buffer -> checksum_right buffer ->
  num_at buffer 4 4 = num_at buffer 8 4 ->
  parse_logs files = Ok (logs, w) -> logs <> [] ->
  build order fuel hash recover full buffer files = Ok p ->
  In WarningTransactionLog (st_info (ps_state p)).
Proof.
  intros B BF K C D PL NE E. eapply build_reports in E; try eassumption; [|intros X; contradiction].
  destruct E as [E|(X & _)]; [exact E|contradiction].
Qed.
