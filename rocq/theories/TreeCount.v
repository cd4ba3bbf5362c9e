(** Opening a well-formed hive, counting, look-up of values, literal filters. *)
From Verif Require Import Base BaseFacts Util UtilSpec UtilText UtilLz LayoutSpec LayoutFacts HeaderFacts BaseBlock Types Value Node Recover
  Parser TxLog TxSpec TxParse TxApply NodeFrame TxBuild CellSpec CellFacts CellData CellList CellRead
  TreeSpec TreeRead TreeIter TreeOpen TreeFilter TreeLook TreeUse AnyFile AnyOpen Pure History.

(** ** Opening succeeds *)
Lemma hive_opens order fuel hash full buffer t : known_file_type buffer -> bytes_at buffer 0 4 = REGF -> hive buffer t ->
  exists p, build order fuel hash false full buffer [] = Ok p /\ ps_buffer p = buffer /\ opened t p.
Proof.
  intros K RG HV. pose proof HV as (B & HB & TP & TS & ND).
  assert (L : 4128 + 80 <= len buffer).
  { inversion TS as [root pos name vals subs d raw NF NEG SN TB ST VS SS FS E0 E1]. rewrite <- E1 in TP. cbn [t_pos] in TP. subst pos.
    apply stored_len in ST. cbn [fi_buffer] in ST. enough (80 <= len (nk_bytes d raw)) by lia.
    unfold nk_bytes. rewrite !len_app, !len_enc. unfold enc_i32. rewrite !len_enc. change (len [110; 107]) with 2.
    clear. lia. }
  unfold build. rewrite (eq_refl : parse_logs [] = Ok ([], [])). cbv beta iota zeta. fold (start hash false full buffer). unfold ps_init.
  destruct (init_base_block_spec (start hash false full buffer)) as (name & bad & p1 & _ & E & F1 & B1 & R1 & _ & RT & I1 & _);
    [change (ps_buffer (start hash false full buffer)) with buffer; lia|exact RG|].
  change (ps_buffer (start hash false full buffer)) with buffer in *. rewrite E. cbv beta iota.
  assert (S : is_supported (base_block_at buffer name) = true) by (apply supported_at; exact K). rewrite S.
  cbv beta iota. change (apply_transaction_logs order fuel bad [] p1) with (Ok p1). cbv beta iota.
  assert (PB : ps_buffer p1 = buffer) by (unfold ps_buffer; now rewrite F1).
  assert (PH : ps_hbin p1 = 4096) by (unfold ps_hbin; now rewrite F1).
  assert (Q : quiet (ps_state p1)).
  { apply (quiet_info (mkState 0 full [] hash [] [] [] [])); [exact (eq_sym I1)|]. repeat split. }
  unfold init_root. rewrite PB, PH.
  assert (G : get_from buffer 4096 = Some (rest_at buffer 4096)) by (apply get_from_rest; lia). rewrite G. cbn [ok_or]. cbv beta iota.
  destruct (hbin_cases 4096 (rest_at buffer 4096)) as [(L32 & _ & HE)|([L32|NB] & _)].
  2:{ rewrite len_rest_at in L32. lia. }
  2:{ rewrite bytes_at_rest in NB. contradiction. }
  rewrite HE. cbv beta iota zeta. change (ps_buffer (ps_set_hbin (hbin_at 4096 (rest_at buffer 4096)) p1)) with (ps_buffer p1).
  change (ps_file (ps_set_hbin (hbin_at 4096 (rest_at buffer 4096)) p1)) with (ps_file p1).
  change (ps_state (ps_set_hbin (hbin_at 4096 (rest_at buffer 4096)) p1)) with (ps_state p1).
  rewrite PB. replace (len buffer - len (rest_at (rest_at buffer 4096) 32)) with (t_pos t).
  2:{ rewrite rest_rest, len_rest_at, TP. lia. }
  rewrite F1. destruct (key_load (mkFI 4096 buffer) (ps_state p1) true t [] true true B) as (k & KR & LD); [reflexivity|exact TS|now right|].
  rewrite KR. cbv beta iota.
  match goal with |- exists p, Ok ?q = Ok p /\ _ => exists q end. split; [reflexivity|]. split; [exact PB|].
  split; try assumption.
  - assert (X : hive (ps_buffer p1) t) by now rewrite PB. exact X.
  - left. assert (X : st_root_offset (set_info [] (ps_state p1)) = 0) by now rewrite I1. exact X.
  - exists k. split; [reflexivity|]. assert (X : waits (ps_file p1) ([], true, t) k) by (rewrite F1; split; [exact LD|constructor]). exact X.
  - exists name. assert (X : ps_base_block p1 = Some (base_block_at (ps_buffer p1) name)) by (rewrite PB; exact B1). exact X.
Qed.

(** ** Counting *)
Definition total {A} (f : A -> N) (l : list A) : N := fold_right (fun a n => f a + n) 0 l.
Lemma total_fold {A} (f : A -> N) l : forall n, fold_left (fun n a => n + f a) l n = n + total f l.
Proof. induction l as [|a l IH]; intros n; cbn [fold_left total fold_right]; [lia|]. rewrite IH. unfold total. lia. Qed.
Lemma count_spec n p f a b : count_all n p f = Ok (a, b) <->
  exists ks, iterate n p f false true false = Ok ks /\ a = len ks /\ b = total (fun k => len (kn_values k)) ks.
Proof.
  unfold count_all. destruct (iterate n p f false true false) as [ks| | |].
  - rewrite total_fold, N.add_0_l. split; [intros [= <- <-]; eauto|]. intros (ks' & [= <-] & -> & ->). reflexivity.
  - split; [discriminate|]. intros (? & ? & _). discriminate.
  - split; [discriminate|]. intros (? & ? & _). discriminate.
  - split; [discriminate|]. intros (? & ? & _). discriminate.
Qed.
Lemma shown_counts ks l : shown ks l -> len ks = len l /\ total (fun k => len (kn_values k)) ks = total (fun x => len (t_vals (snd x))) l.
Proof.
  induction 1 as [|k x ks l (_ & _ & _ & V & _) S (IH1 & IH2)]; [now split|]. rewrite !len_cons, IH1. split; [reflexivity|].
  cbn [total fold_right]. fold (@total key_node) (@total (list (list N) * key_tree)). unfold total in IH2. rewrite IH2.
  unfold len. now rewrite (Forall2_length _ _ _ V).
Qed.
(** Numbers of keys and of values of a tree. *)
Fixpoint keys_in (t : key_tree) : N := let 'KeyTree _ _ _ subs := t in 1 + fold_right (fun s n => keys_in s + n) 0 subs.
Fixpoint values_in (t : key_tree) : N := let 'KeyTree _ _ vals subs := t in len vals + fold_right (fun s n => values_in s + n) 0 subs.
Lemma total_app {A} (f : A -> N) a b : total f (a ++ b) = total f a + total f b.
Proof. induction a as [|x a IH]; [reflexivity|]. cbn [total fold_right app] in *. unfold total in *. rewrite IH. lia. Qed.
Fixpoint tree_size (t : key_tree) : nat := let 'KeyTree _ _ _ subs := t in S (fold_right (fun s n => (tree_size s + n)%nat) O subs).
Lemma preorder_counts : forall n t above, (tree_size t <= n)%nat ->
  len (preorder above t) = keys_in t /\ total (fun x => len (t_vals (snd x))) (preorder above t) = values_in t.
Proof.
  induction n as [|n IH]; intros [p nm vals subs] above L; cbn [tree_size] in L; [lia|].
  cbn [preorder t_name keys_in values_in]. rewrite len_cons. cbn [total fold_right snd t_vals].
  fold (@total (list (list N) * key_tree) (fun x => len (t_vals (snd x)))).
  enough (X : len (flat_map (preorder (above ++ [nm])) subs) = fold_right (fun s n => keys_in s + n) 0 subs
    /\ total (fun x => len (t_vals (snd x))) (flat_map (preorder (above ++ [nm])) subs) = fold_right (fun s n => values_in s + n) 0 subs).
  { destruct X as (X1 & X2). unfold total in X2. rewrite X1, X2. split; [lia|reflexivity]. }
  assert (L' : (fold_right (fun s n => (tree_size s + n)%nat) O subs <= n)%nat) by lia. clear L.
  induction subs as [|s r IHr]; [split; reflexivity|]. cbn [flat_map fold_right] in *. rewrite len_app, total_app.
  destruct (IH s (above ++ [nm])) as (-> & ->); [lia|]. destruct IHr as (-> & ->); [lia|]. split; reflexivity.
Qed.
Lemma opened_count t p n : opened t p -> (2 * length (positions t) < n)%nat -> count_all n p None = Ok (keys_in t, values_in t).
Proof.
  intros O L. destruct (opened_iterate t p false true n O L) as ((ks & E & S) & _). apply count_spec.
  exists ks. split; [exact E|]. apply shown_counts in S as (-> & ->). destruct (preorder_counts _ t [] (le_n _)) as (-> & ->). now split.
Qed.
Lemma opened_count_filter t p q n : opened t p -> clean_names t -> below_root q -> (2 * length (positions t) < n)%nat ->
  count_all n p (Some q) = Ok (len (filtered q false (preorder [] t)), total (fun x => len (t_vals (snd x))) (filtered q false (preorder [] t))).
Proof.
  intros O C BR L. destruct (opened_filter t p q false true n O C BR) as (ks & E & S); [lia|]. apply count_spec.
  exists ks. split; [exact E|]. apply shown_counts in S as (-> & ->). now split.
Qed.

(** ** Values by name *)
Lemma lower_same x y : Forall scalar x -> Forall scalar y -> beq (to_lower (utf8 x)) (to_lower (utf8 y)) = same_name x y.
Proof.
  intros X Y. unfold to_lower. change (map lower (utf8 x)) with (to_lower (utf8 x)).  change (map lower (utf8 y)) with (to_lower (utf8 y)).
  unfold to_lower. rewrite !lower_utf8 by assumption. unfold same_name.
  destruct (beq (map fold_case x) (map fold_case y)) eqn:E.
  - apply beq_eq in E. rewrite E. apply beq_refl.
  - destruct (beq (utf8 (map fold_case x)) (utf8 (map fold_case y))) eqn:F; [|reflexivity]. apply beq_eq in F.
    apply utf8_inj in F; [|now apply fold_scalar|now apply fold_scalar]. rewrite F, beq_refl in E. discriminate.
Qed.
Definition named (v : key_value) (x : list N) : Prop := vd_name (kv_detail v) = utf8 x /\ Forall scalar x.
Lemma get_value_spec k names y : Forall2 named (kn_values k) names -> Forall scalar y ->
  match get_value k (utf8 y) with
  | Some v => exists before x after v1 v2, names = before ++ x :: after /\ kn_values k = v1 ++ v :: v2 /\ length v1 = length before
      /\ same_name x y = true /\ Forall (fun n => same_name n y = false) before
  | None => Forall (fun n => same_name n y = false) names
  end.
Proof.
  unfold get_value. intros F Y. induction F as [|v x vs names N F IH]; [constructor|]. cbn [find].
  destruct N as (U & S).
  rewrite U, lower_same by assumption. destruct (same_name x y) eqn:E.
  - exists [], x, names, [], vs. repeat split; auto.
  - destruct (find _ vs) as [v'|].
    + destruct IH as (bf & x' & af & v1 & v2 & -> & -> & L & SM & FB). exists (x :: bf), x', af, (v :: v1), v2.
      repeat split; auto. cbn. now rewrite L.
    + now constructor.
Qed.

(** ** Filters made of literal names *)
Fixpoint all_same (a b : list (list N)) : bool :=
  match a, b with
  | [], [] => true
  | x :: a, y :: b => same_name x y && all_same a b
  | _, _ => false
  end.
Lemma split_slash s : split_bs (92 :: s) = [] :: split_bs s.
Proof. reflexivity. Qed.
Lemma literal_components segs b : good segs -> segs <> [] -> hd_error (rev segs) <> Some [] ->
  rq_path (add_key_path empty_query (utf8 (joined segs ++ repeat 92 b))) = map lit segs.
Proof.
  intros G NE H. pose proof (path_components segs b G NE H) as P. rewrite spelled_joined in P by exact NE.
  cbn [app] in P. rewrite utf8_slash in P. cbn [map] in P. unfold add_key_path. cbn [rq_path empty_query app].
  destruct (last_split segs NE H) as (pre & z & E & Z). destruct G as (S & C).
  assert (SZ : Forall scalar z /\ ~ In 92 z).
  { rewrite E in S, C. apply Forall_app in S as [_ S]. apply Forall_app in C as [_ C]. apply Forall_cons_iff in S as [S _].
    apply Forall_cons_iff in C as [C _]. now split. }
  destruct (utf8_last z (proj1 SZ) (proj2 SZ) Z) as (w & c & W & NC).
  assert (T : exists s, utf8 (spelled segs) = s ++ [c]).
  { exists (utf8 (spelled pre) ++ 92 :: w). rewrite E, spelled_app, utf8_app. cbn [spelled flat_map]. rewrite app_nil_r, utf8_slash, W.
    now rewrite <- app_assoc. }
  destruct T as (s & T). rewrite spelled_joined in T by exact NE. rewrite utf8_slash in T.
  destruct s as [|d s]; [cbn in T; injection T as <- _; contradiction|]. cbn [app] in T. injection T as <- T.
  rewrite utf8_app, utf8_repeat, T in P |- *. change (92 :: (s ++ [c]) ++ repeat 92 b) with (((92 :: s) ++ [c]) ++ repeat 92 b) in P.
  rewrite trim_end_keep in P by exact NC. rewrite trim_end_keep by exact NC. cbn [app] in P. rewrite split_slash in P. cbn [map] in P. now injection P as P.
Qed.
(** What such a filter selects: the keys reached by the names. *)
Lemma literal_agrees segs : Forall (Forall scalar) segs -> forall names, Forall (Forall scalar) names -> length names = length segs ->
  forallb (fun cs => seg_match (fst cs) (snd cs)) (combine (map lit segs) names) = all_same names segs.
Proof.
  intros S. induction S as [|a segs SA S IH]; intros [|n names] SN L; try discriminate; [reflexivity|].
  apply Forall_cons_iff in SN as [N SN]. cbn [map combine forallb fst snd all_same]. rewrite lit_match, IH by auto. reflexivity.
Qed.
Lemma all_same_length a : forall b, all_same a b = true -> length a = length b.
Proof. induction a as [|x a IH]; intros [|y b]; try discriminate; [reflexivity|]. cbn. intros E. apply andb_true_iff in E as [_ E]. now rewrite (IH b). Qed.
Lemma literal_selects segs b names : path_names segs -> segs <> [] -> Forall (Forall scalar) names -> names <> [] ->
  selected (add_key_path empty_query (utf8 (joined segs ++ repeat 92 b))) false names = all_same (tl names) segs.
Proof.
  intros (S & C & F & L) NE SN NN.
  assert (P : rq_path (add_key_path empty_query (utf8 (joined segs ++ repeat 92 b))) = map lit segs) by (apply literal_components; auto; now split).
  unfold selected, agrees, segments. rewrite P. cbn [rq_has_root rq_children add_key_path empty_query]. rewrite len_map.
  destruct names as [|r [|n names]]; [contradiction|destruct segs; [contradiction|reflexivity]|]. cbn [tl].
  apply Forall_cons_iff in SN as [_ SN].
  destruct (N.eqb_spec (len (n :: names)) (len segs)) as [E|E].
  - rewrite literal_agrees; auto; [now rewrite andb_true_r|]. unfold len in E. lia.
  - transitivity false; [destruct (_ <? _); apply andb_false_r|]. symmetry. apply not_true_is_false. intros X. apply all_same_length in X.
    apply E. unfold len. now rewrite X.
Qed.
