(** Proofs about the spreadsheet export: whole sheets. *)
From Coq Require Import String.
From Verif Require Import Base BaseFacts Util UtilSpec UtilText LayoutSpec Types Value Node Parser TxSpec TxLog Log Export ExportSpec ExportFacts
  Date DateSpec DateFacts CellSpec CellData TreeSpec Show ShowSpec ShowFacts Xlsx XlsxSpec XlsxFacts XlsxRows.
Open Scope string_scope.
Open Scope N_scope.
Open Scope list_scope.

(** ** The export writes one item after the other *)
Lemma each_app {A} (f : A -> book -> res book) l1 : forall l2 b, write_each f (l1 ++ l2) b = let* b := write_each f l1 b in write_each f l2 b.
Proof. induction l1 as [|x l1 IH]; intros l2 b; [reflexivity|]. cbn [app write_each]. destruct (f x b); [apply IH|reflexivity..]. Qed.
Lemma each_same {A B} (f : A -> book -> res book) (g : B -> book -> res book) (h : A -> list B) l :
  (forall x, In x l -> forall b, f x b = write_each g (h x) b) -> forall b, write_each f l b = write_each g (flat_map h l) b.
Proof.
  induction l as [|x l IH]; intros H b; [reflexivity|]. cbn [flat_map]. rewrite each_app. cbn [write_each]. rewrite (H x (or_introl eq_refl)).
  destruct (write_each g (h x) b); try reflexivity. apply IH. intros y Y. apply H. now right.
Qed.
Section All.
Context (accepts : list write -> write -> bool) (printable : N -> bool) (key_logs : key_node -> list N) (value_logs : key_value -> list N) (recovered_only : bool).
Notation item_put := (put_item accepts printable key_logs value_logs).
Notation item_cells := (item_row printable key_logs value_logs).
Lemma value_same k v b : write_value accepts printable value_logs recovered_only k v b = write_each item_put (List.filter (kept recovered_only) [ValueItem k v]) b.
Proof.
  rewrite (write_value_row accepts printable key_logs). cbn [List.filter]. destruct (kept _ _); [|reflexivity]. cbn [write_each]. now rewrite bind_ok.
Qed.
Lemma values_same k b : write_each (fun v b => let* b := write_value accepts printable value_logs recovered_only k v b in
    write_each (write_value accepts printable value_logs recovered_only k) (kv_versions v) b) (values_of k) b
  = write_each item_put (List.filter (kept recovered_only) (value_items k)) b.
Proof.
  rewrite values_of_all. unfold value_items. rewrite filter_flat. apply each_same. intros v _ b1.
  change (ValueItem k v :: map (ValueItem k) (kv_versions v)) with ([ValueItem k v] ++ map (ValueItem k) (kv_versions v)).
  rewrite filter_app, each_app, <- value_same. destruct (write_value _ _ _ _ k v b1) as [b2| | |]; try reflexivity. cbv beta iota.
  rewrite <- flat_map_single, filter_flat. apply each_same. intros x _ b3. apply value_same.
Qed.
Lemma key_same : forall k b, write_key accepts printable key_logs value_logs recovered_only k true b
  = write_each item_put (List.filter (kept recovered_only) (version_items k)) b.
Proof.
  apply (versions_ind (fun k => forall b, write_key accepts printable key_logs value_logs recovered_only k true b
    = write_each item_put (List.filter (kept recovered_only) (version_items k)) b)).
  intros k IH b. rewrite write_key_row. rewrite Forall_forall in IH.
  assert (U : version_items k = KeyItem k :: flat_map version_items (kn_versions k)) by now destruct k.
  rewrite U. cbn [List.filter]. rewrite filter_flat. destruct (kept recovered_only (KeyItem k)) eqn:K.
  - rewrite bind_ok. cbn [write_each]. destruct (item_put (KeyItem k) b); try reflexivity. cbv beta iota. apply each_same. intros v I b1. now apply IH.
  - destruct recovered_only; [|discriminate K]. cbn [kept] in K. unfold recovered_item in K. apply orb_false_iff in K as [_ K].
    destruct (kn_versions k); [|discriminate K]. reflexivity.
Qed.
Lemma keys_same k b : write_key accepts printable key_logs value_logs recovered_only k false b
  = write_each item_put (List.filter (kept recovered_only) (tsv_items k)) b.
Proof.
  unfold tsv_items. rewrite filter_app, each_app, <- key_same, !write_key_row, bind_ok.
  destruct (if kept recovered_only (KeyItem k) then _ else Ok b) as [b1| | |]; try reflexivity. cbv beta iota. apply values_same.
Qed.
Fixpoint numbered_from (n : N) (l : list (list N)) : list (N * expected) :=
  match l with [] => [] | h :: l => (n, Txt h) :: numbered_from (n + 1) l end.
Definition header_cells : list (N * expected) := numbered_from 0 tsv_columns.
Lemma header_row l : Forall short l -> forall n b, put_header accepts l n b = put_row accepts Items (numbered_from n l) b.
Proof.
  induction 1 as [|h l S F IH]; intros n b; [reflexivity|]. cbn [put_header numbered_from put_row]. rewrite (direct accepts printable) by exact S.
  change (put_entry accepts Items (n, Txt h) b) with (check_write_string accepts Items n h b).
  destruct (check_write_string accepts Items n h b); try reflexivity. apply IH.
Qed.
Lemma columns_short : Forall short tsv_columns.
Proof. unfold tsv_columns. cbn [map]. repeat (constructor; [short_literal|]). constructor. Qed.
Definition put_message (m : message) (b : book) : res book :=
  let* b := put_row accepts Logs [(0, Txt (code_name (mg_code m))); (1, Txt (mg_text m))] b in Ok (next_row Logs b).
Lemma export_same ks log : xlsx_export accepts printable key_logs value_logs recovered_only ks log =
  let* b := put_row accepts Items header_cells new_book in
  let* b := write_each item_put (List.filter (kept recovered_only) (flat_map tsv_items ks)) b in
  write_each put_message (or_default log) b.
Proof.
  unfold xlsx_export. rewrite (header_row tsv_columns columns_short 0 new_book : put_header accepts xlsx_header 0 new_book = _). fold header_cells.
  destruct (put_row accepts Items header_cells new_book) as [b| | |]; try reflexivity. cbv beta iota.
  assert (E : forall b, write_each (fun k => write_key accepts printable key_logs value_logs recovered_only k false) ks b
    = write_each item_put (List.filter (kept recovered_only) (flat_map tsv_items ks)) b).
  { intros b1. rewrite filter_flat. apply each_same. intros k _ b2. apply keys_same. }
  rewrite E. destruct (write_each item_put _ b) as [b1| | |]; try reflexivity. cbv beta iota.
  assert (M : forall m b, write_log accepts m b = put_message m b).
  { intros m b2. unfold write_log, put_message. cbn [put_row]. rewrite (direct accepts printable) by apply code_short.
    change (put_entry accepts Logs (0, Txt (code_name (mg_code m))) b2) with (check_write_string accepts Logs 0 (code_name (mg_code m)) b2).
    destruct (check_write_string accepts Logs 0 _ b2) as [b3| | |]; try reflexivity. cbv beta iota.
    change (put_entry accepts Logs (1, Txt (mg_text m)) b3) with (check_write_string accepts Logs 1 (mg_text m) b3). now destruct (check_write_string accepts Logs 1 _ b3). }
  destruct log as [ms|]; [|reflexivity]. cbn [logs_get or_default]. revert b1. induction ms as [|m ms IH]; intros b2; [reflexivity|]. cbn [write_each]. rewrite M.
  destruct (put_message m b2); try reflexivity. apply IH.
Qed.

(** ** What is written is shown *)
Context (IN : in_sheet accepts).
Definition entry_text (x : N * expected) : Prop := match snd x with Txt t => is_text t | _ => True end.
Lemma good_entry s b R pre row x b' : main s -> entry_text x -> good b R -> get s R = pre ++ [row] -> ~ In (fst x) (map fst row) ->
  put_entry accepts s x b = Ok b' -> good b' (set s R (pre ++ [row ++ [x]])) /\ (forall t, main t -> row_of t b' = row_of t b)
  /\ (match snd x with Num _ => row_of s b < 1048576 | _ => True end).
Proof.
  intros M T G ER NI E. destruct x as [col [|n|t]]; cbn [entry_text put_entry fst snd] in *.
  - injection E as <-. split; [|split; [reflexivity|exact I]]. pose proof G as [G1 G2 G3 G4].
    apply (good_put s b R pre row col Nothing [] b); try assumption; [now rewrite app_nil_r|intros t; split; [lia|apply G4]|reflexivity|constructor|].
    intros B. exact B.
  - apply (put_ok accepts IN) in E as (W & RO & RL & _). split; [|split; [intros; apply RO|exact RL]]. pose proof G as [G1 G2 G3 G4].
    apply (good_put s b R pre row col (Num n) [mkWrite s (row_of s b) col (Number n)] b'); try assumption.
    + intros t. rewrite RO. split; [lia|apply G4].
    + intros; apply RO.
    + constructor; [right; now cbn|constructor].
    + intros (B1 & B2). cbn [shows]. unfold number_at. rewrite W, cell_snoc, link_snoc, here_self. cbn [is_link w_what]. split; [reflexivity|exact B2].
  - destruct (good_string accepts IN s b R pre row col t b' M T G ER NI E) as (A & B). split; [exact A|]. split; [exact B|exact I].
Qed.
Lemma set_set s R x y : main s -> set s (set s R x) y = set s R y. Proof. intros [-> | ->]; reflexivity. Qed.
Lemma good_row s es : main s -> forall b R pre row b', Forall entry_text es -> good b R -> get s R = pre ++ [row] -> NoDup (map fst (row ++ es)) ->
  put_row accepts s es b = Ok b' -> good b' (set s R (pre ++ [row ++ es])) /\ (forall t, main t -> row_of t b' = row_of t b).
Proof.
  intros M. induction es as [|e es IH]; intros b R pre row b' T G ER ND E; cbn [put_row] in E.
  { injection E as <-. rewrite app_nil_r, <- ER. split; [|reflexivity]. destruct R; destruct M as [-> | ->]; exact G. }
  apply Forall_cons_iff in T as (T1 & T2). destruct (put_entry accepts s e b) as [b1| | |] eqn:E1; try discriminate.
  assert (NI : ~ In (fst e) (map fst row)).
  { rewrite map_app in ND. cbn [map] in ND. apply NoDup_remove_2 in ND. intros X. apply ND. apply in_or_app. now left. }
  destruct (good_entry s b R pre row e b1 M T1 G ER NI E1) as (G' & RO & _).
  replace (row ++ e :: es) with ((row ++ [e]) ++ es) in * by now rewrite <- app_assoc.
  apply (IH _ _ pre (row ++ [e]) _ T2 G') in E; [|now apply get_set|exact ND]. destruct E as (A & B). rewrite set_set in A by exact M.
  split; [exact A|]. intros t Mt. rewrite (B t Mt). now apply RO.
Qed.
Lemma app_last {A} (l : list A) : l <> [] -> exists pre x, l = pre ++ [x].
Proof. intros H. destruct (exists_last H) as (pre & x & ->). now exists pre, x. Qed.

Lemma value_content v : bytes_ok (data_bytes v) -> exists c l, get_content v = Ok (c, l) /\ content_of_value v = c /\ content_text c.
Proof.
  intros B. destruct (content_total v) as (c & l & E). exists c, l. split; [exact E|]. split; [now apply (content_of_ok v c l)|]. exact (content_is_text v c l B E).
Qed.
Lemma pretty v : kv_pretty_name v = value_name v.
Proof. unfold value_name, kv_pretty_name, get_pretty_name. now destruct (vd_name (kv_detail v)). Qed.
Lemma name_text v : is_text (vd_name (kv_detail v)) -> is_text (value_name v).
Proof. unfold value_name. destruct (vd_name (kv_detail v)); [intros _; apply default_text|auto]. Qed.
Lemma cells_text n i : item_texts key_logs value_logs i -> Forall entry_text (item_cells n i).
Proof.
  destruct i as [k|k v]; cbn [item_texts item_row].
  - intros (A & B). assert (O : forall c o, entry_text (c, opt_num o)) by now intros c [].
    repeat (constructor; [first [exact I|apply O|unfold entry_text; cbn [snd]; first [apply legal_is_text, sanitize_text; assumption|apply short_text; first [apply date_short|apply state_short|apply key_flags_short|apply access_flags_short]]]|]). constructor.
  - intros (A & B & C & D). assert (O : forall c o, entry_text (c, opt_num o)) by now intros c [].
    destruct (value_content v C) as (c & l & _ & CE & CT). rewrite CE, pretty. apply name_text in B.
    repeat (constructor; [first [exact I|apply O|unfold entry_text; cbn [snd]; first [apply legal_is_text, sanitize_text; assumption|apply short_text; first [apply state_short|apply type_short]|now apply cell_text]]|]). constructor.
Qed.
Lemma cells_columns n i : NoDup (map fst (item_cells n i)).
Proof. destruct i; cbn [item_row map fst]; repeat (constructor; [cbn; intros H; repeat (destruct H as [H|H]; [discriminate H|]); exact H|]); constructor. Qed.

Lemma good_item i b R b' : item_texts key_logs value_logs i -> good b R -> bk_items b < 1048576 -> item_put i b = Ok b' ->
  good b' (fst R ++ [item_cells (len (fst R)) i], snd R) /\ bk_items b' < 1048576 /\ bk_logs b' = bk_logs b.
Proof.
  intros T G L E. unfold put_item in E. cbv zeta in E. assert (M : main Items) by now left.
  pose proof (good_next Items b R M L G) as G0. destruct (next_rows Items b L) as (_ & RO). set (b0 := next_row Items b) in *.
  assert (N0 : bk_items b0 = len (fst R)).
  { change (bk_items b0) with (row_of Items b0). rewrite RO. cbn [same_sheet]. symmetry. exact (g_rows _ _ G Items M). }
  rewrite N0 in E. cbn [get set] in G0.
  assert (RL : bk_items b0 < 1048576).
  { destruct i; cbn [item_row put_row] in E; destruct (put_entry accepts Items (0, Num (len (fst R))) b0) as [b1| | |] eqn:E1; try discriminate E;
      apply (put_ok accepts IN) in E1 as (_ & _ & X & _); exact X. }
  destruct (good_row Items (item_cells (len (fst R)) i) M b0 _ (fst R) [] b' (cells_text _ _ T) G0 eq_refl (cells_columns _ _) E) as (A & B).
  cbn [set snd app] in A. split; [exact A|].
  pose proof (B Items M) as B1. pose proof (B Logs (or_intror eq_refl)) as B2. rewrite RO in B2. cbn [row_of same_sheet] in B1, B2. split; [rewrite B1; exact RL|exact B2].
Qed.
Fixpoint item_rows (n : N) (is : list item) : list (list (N * expected)) :=
  match is with [] => [] | i :: is => item_cells n i :: item_rows (n + 1) is end.
Lemma good_items is : forall b R b', Forall (item_texts key_logs value_logs) is -> good b R -> bk_items b < 1048576 -> write_each item_put is b = Ok b' ->
  good b' (fst R ++ item_rows (len (fst R)) is, snd R).
Proof.
  induction is as [|i is IH]; intros b R b' T G L E; cbn [write_each item_rows] in *.
  { injection E as <-. rewrite app_nil_r. now destruct R. }
  apply Forall_cons_iff in T as (T1 & T2). destruct (item_put i b) as [b1| | |] eqn:E1; try discriminate.
  destruct (good_item i b R b1 T1 G L E1) as (G1 & L1 & _). apply (IH _ _ _ T2 G1 L1) in E. cbn [fst snd] in E.
  rewrite len_app, <- app_assoc in E. exact E.
Qed.
Definition message_row (m : message) : list (N * expected) := [(0, Txt (code_name (mg_code m))); (1, Txt (mg_text m))].
Lemma good_messages ms : forall b R b', Forall (fun m => is_text (mg_text m)) ms -> good b R -> (exists pre, snd R = pre ++ [[]]) -> write_each put_message ms b = Ok b' ->
  exists last, good b' (fst R, removelast (snd R) ++ map message_row ms ++ last) /\ (last = [[]]).
Proof.
  induction ms as [|m ms IH]; intros b R b' T G (pre & EP) E; cbn [write_each map] in *.
  { injection E as <-. exists [[]]. cbn [app]. rewrite EP, removelast_last, <- EP. split; [now destruct R|reflexivity]. }
  apply Forall_cons_iff in T as (T1 & T2). destruct (put_message m b) as [b1| | |] eqn:E1; try discriminate. unfold put_message in E1.
  fold (message_row m) in E1. destruct (put_row accepts Logs (message_row m) b) as [b2| | |] eqn:E2; try discriminate. injection E1 as <-.
  assert (M : main Logs) by now right.
  assert (TX : Forall entry_text (message_row m)) by (constructor; [apply short_text, code_short|constructor; [exact T1|constructor]]).
  assert (L2 : row_of Logs b < 1048576).
  { cbn [message_row put_row] in E2. destruct (put_entry accepts Logs (0, Txt (code_name (mg_code m))) b) as [b3| | |] eqn:E3; try discriminate E2.
    unfold put_entry in E3. cbn [fst snd] in E3. rewrite <- (direct accepts printable) in E3 by apply code_short. apply (put_ok accepts IN) in E3. tauto. }
  destruct (good_row Logs (message_row m) M b R pre [] b2 TX G EP) as (G2 & RO); [repeat (constructor; [cbn; lia|]); constructor|exact E2|].
  cbn [app] in G2. apply (good_next Logs b2 _ M) in G2; [|rewrite RO by exact M; exact L2].
  rewrite get_set, set_set in G2 by exact M. apply (IH _ _ _ T2 G2) in E; [|cbn [set snd]; now eexists].
  destruct E as (l & A & ->). exists [[]]. cbn [set fst snd] in A. rewrite removelast_last in A. rewrite EP, removelast_last.
  rewrite <- app_assoc in A. split; [exact A|reflexivity].
Qed.
Lemma header_good b : put_row accepts Items header_cells new_book = Ok b -> good b ([header_cells], [[]]) /\ bk_items b = 0.
Proof.
  intros E. assert (M : main Items) by now left.
  assert (TX : Forall entry_text header_cells) .
  { unfold header_cells. pose proof columns_short as C. revert C. generalize 0, tsv_columns. intros n l C. revert n.
    induction C as [|h l S C IH]; intros n; constructor; [apply (short_text _ S)|apply IH]. }
  destruct (good_row Items header_cells M new_book ([[]], [[]]) [] [] b TX good_new eq_refl) as (A & B); [|exact E|].
  - cbn [app]. change (NoDup [0; 1; 2; 3; 4; 5; 6; 7; 8; 9; 10; 11; 12]). repeat (constructor; [cbn; intros H; repeat (destruct H as [H|H]; [discriminate H|]); exact H|]). constructor.
  - split; [exact A|]. exact (B Items M).
Qed.
Lemma export_good ks log b : Forall (item_texts key_logs value_logs) (List.filter (kept recovered_only) (flat_map tsv_items ks)) ->
  Forall (fun m => is_text (mg_text m)) (or_default log) ->
  xlsx_export accepts printable key_logs value_logs recovered_only ks log = Ok b ->
  good b (header_cells :: item_rows 1 (List.filter (kept recovered_only) (flat_map tsv_items ks)), map message_row (or_default log) ++ [[]]).
Proof.
  intros T TL. rewrite export_same. destruct (put_row accepts Items header_cells new_book) as [b0| | |] eqn:E0; try discriminate. cbv beta iota.
  apply header_good in E0 as (G0 & L0). destruct (write_each item_put _ b0) as [b1| | |] eqn:E1; try discriminate. cbv beta iota.
  apply (good_items _ _ _ _ T G0) in E1; [|rewrite L0; reflexivity]. cbn [fst snd app] in E1. intros E2.
  apply (good_messages _ _ _ _ TL E1) in E2; [|now exists []]. destruct E2 as (l & A & ->). exact A.
Qed.
End All.
