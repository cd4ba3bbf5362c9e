(** Proofs about the looks of the spreadsheet export. *)
From Coq Require Import Lia.
From Verif Require Import Base BaseFacts LayoutSpec Types Value Node Parser TxLog TxSpec LivePlain ShowFacts Export ExportSpec ExportFacts XlsxLook LookSpec.
Open Scope N_scope.
Open Scope list_scope.

(** *** Items *)
Definition look_item (i : item) (l : looks) : looks := look_row (fst (called i)) (snd (called i)) (item_state i) l.
Lemma look_app {A} (f : A -> looks -> looks) a b l : look_each f (a ++ b) l = look_each f b (look_each f a l).
Proof. revert l. induction a as [|x a IH]; intros l; [reflexivity|]. cbn [app look_each]. apply IH. Qed.
Lemma look_same {A B} (f : A -> looks -> looks) (g : B -> looks -> looks) h xs :
  (forall x, In x xs -> forall l, f x l = look_each g (h x) l) -> forall l, look_each f xs l = look_each g (flat_map h xs) l.
Proof.
  induction xs as [|x xs IH]; intros H l; [reflexivity|]. cbn [flat_map]. rewrite look_app. cbn [look_each]. rewrite (H x (or_introl eq_refl)).
  apply IH. intros y Y. apply H. now right.
Qed.
Section Looks.
Context (o : bool).
Lemma kept_key k : kept o (KeyItem k) = negb o || kn_has_or_is_recovered k.
Proof. unfold kept, recovered_item, kn_has_or_is_recovered. cbn [item_state]. now destruct o, (kn_state k). Qed.
Lemma kept_value k v : kept o (ValueItem k v) = negb (o && negb (kv_has_or_is_recovered v)).
Proof. unfold kept, recovered_item, kv_has_or_is_recovered. cbn [item_state]. destruct o, (kv_state v), (kv_versions v); reflexivity. Qed.
Lemma look_value_item k v l : look_value o k v l = look_each look_item (List.filter (kept o) [ValueItem k v]) l.
Proof. unfold look_value. cbn [List.filter]. rewrite kept_value. now destruct (o && _). Qed.
Lemma look_values k l : look_each (fun v l => look_each (look_value o k) (kv_versions v) (look_value o k v l)) (values_of k) l
  = look_each look_item (List.filter (kept o) (value_items k)) l.
Proof.
  rewrite values_of_all. unfold value_items. rewrite filter_flat. apply look_same. intros v _ l1.
  change (ValueItem k v :: map (ValueItem k) (kv_versions v)) with ([ValueItem k v] ++ map (ValueItem k) (kv_versions v)).
  rewrite filter_app, look_app, <- look_value_item. rewrite <- flat_map_single, filter_flat. apply look_same. intros x _ l2. apply look_value_item.
Qed.
Lemma look_key_eq k m l : look_key o k m l =
  let l := if negb o || kn_has_or_is_recovered k then look_each (fun v => look_key o v true) (kn_versions k) (look_row (kn_path k) None (kn_state k) l) else l in
  if m then l else look_each (fun v l => look_each (look_value o k) (kv_versions v) (look_value o k v l)) (values_of k) l.
Proof. now destruct k. Qed.
Lemma look_versions : forall k l, look_key o k true l = look_each look_item (List.filter (kept o) (version_items k)) l.
Proof.
  apply (versions_ind (fun k => forall l, look_key o k true l = look_each look_item (List.filter (kept o) (version_items k)) l)).
  intros k IH l. rewrite look_key_eq. rewrite Forall_forall in IH. cbv zeta.
  assert (U : version_items k = KeyItem k :: flat_map version_items (kn_versions k)) by now destruct k.
  rewrite U. cbn [List.filter]. rewrite filter_flat, <- kept_key. destruct (kept o (KeyItem k)) eqn:K.
  - cbn [look_each]. apply look_same. intros v I l1. now apply IH.
  - destruct o; [|discriminate K]. cbn [kept] in K. unfold recovered_item in K. apply orb_false_iff in K as [_ K].
    destruct (kn_versions k); [|discriminate K]. reflexivity.
Qed.
Lemma look_keys k l : look_key o k false l = look_each look_item (List.filter (kept o) (tsv_items k)) l.
Proof. unfold tsv_items. rewrite filter_app, look_app, <- look_versions, <- look_values, !look_key_eq. reflexivity. Qed.
Lemma looks_items ks : xlsx_looks o ks = fst (look_each look_item (List.filter (kept o) (flat_map tsv_items ks)) ([], new_shading)).
Proof. unfold xlsx_looks. f_equal. rewrite filter_flat. apply look_same. intros k _ l. apply look_keys. Qed.
End Looks.

(** *** One row after the other *)
Lemma same_name_true a b : same_name_as a b = true <-> a = b.
Proof. destruct a, b; cbn; try rewrite beq_eq; split; congruence. Qed.
Definition last_called (is : list item) : list N * option (list N) := match rev is with i :: _ => called i | [] => ([], None) end.
Definition last_back (ls : list (N * (format * format))) : option N := match rev ls with (_, (f, _)) :: _ => f_back f | [] => None end.
Definition grey (b : bool) : option N := if b then Some 0xF4F4F4 else None.
Definition so_far (is : list item) (l : looks) : Prop :=
  tells_looks is (fst l) /\ s_row (snd l) = len is /\ (s_path (snd l), s_name (snd l)) = last_called is /\ grey (s_shaded (snd l)) = last_back (fst l).
Lemma nth_snoc {A} (l : list A) x n : nth_error (l ++ [x]) n = if Nat.eqb n (List.length l) then Some x else nth_error l n.
Proof.
  destruct (Nat.eqb_spec n (List.length l)) as [->|E]; [rewrite nth_error_app2, Nat.sub_diag by lia; reflexivity|].
  destruct (Nat.lt_ge_cases n (List.length l)); [now rewrite nth_error_app1|].
  rewrite (proj2 (nth_error_None l n)), (proj2 (nth_error_None (l ++ [x]) n)); [reflexivity|rewrite app_length; cbn [List.length]; lia|lia].
Qed.
Lemma before_snoc is i n : (n <= List.length is)%nat -> before (is ++ [i]) n = before is n.
Proof. destruct n as [|n]; [reflexivity|]. intros L. cbn [before]. rewrite nth_error_app1 by lia. reflexivity. Qed.
Lemma back_snoc ls x n : (n <= List.length ls)%nat -> back_before (ls ++ [x]) n = back_before ls n.
Proof. destruct n as [|n]; [reflexivity|]. intros L. cbn [back_before]. rewrite nth_error_app1 by lia. reflexivity. Qed.
Lemma before_last is : match before is (List.length is) with Some b => called b | None => ([], None) end = last_called is.
Proof.
  unfold last_called. destruct is as [|x l] using rev_ind; [reflexivity|]. rewrite rev_app_distr, app_length, Nat.add_comm. cbn [rev app List.length Nat.add before].
  rewrite nth_snoc, Nat.eqb_refl. reflexivity.
Qed.
Lemma back_last ls : back_before ls (List.length ls) = last_back ls.
Proof.
  unfold last_back. destruct ls as [|x l] using rev_ind; [reflexivity|]. rewrite rev_app_distr, app_length, Nat.add_comm. cbn [rev app List.length Nat.add back_before].
  rewrite nth_snoc, Nat.eqb_refl. destruct x as [? [? ?]]. reflexivity.
Qed.
Lemma begins_called is i : begins (before is (List.length is)) i <-> unused (item_state i) = true \/ called i <> last_called is.
Proof.
  unfold begins. rewrite <- before_last. destruct (before is (List.length is)); split; intros [H|H]; [now left|right; congruence|now left|right; congruence|now left|now right|now left|now right].
Qed.
(** What [set_shading] decides. *)
Definition news (s : shading) (i : item) : bool :=
  negb (beq (fst (called i)) (s_path s)) || negb (same_name_as (snd (called i)) (s_name s)) || unused (item_state i).
Lemma news_is s i : news s i = true <-> unused (item_state i) = true \/ called i <> (s_path s, s_name s).
Proof.
  unfold news. rewrite !orb_true_iff, !negb_true_iff. rewrite <- !not_true_iff_false, beq_eq, same_name_true. destruct (called i) as [p m]. cbn [fst snd].
  split.
  - intros [[H|H]|H]; [right; congruence|right; congruence|now left].
  - intros [H|H]; [now right|]. left. destruct (beq p (s_path s)) eqn:E; [apply beq_eq in E; right; congruence|left]. intros X. apply beq_eq in X. congruence.
Qed.
Lemma set_shading_is i s : set_shading (fst (called i)) (snd (called i)) (item_state i) s =
  mkShading (s_row s) (xorb (news s i) (s_shaded s)) (news s i) (fst (called i)) (snd (called i)).
Proof.
  unfold set_shading, news. destruct (negb (beq _ _) || negb (same_name_as _ _)) eqn:E; [reflexivity|].
  apply orb_false_iff in E as (E1 & E2). apply negb_false_iff in E1, E2. apply beq_eq in E1. apply same_name_true in E2. rewrite <- E1, <- E2.
  unfold is_deleted_primary_file, unused. destruct (item_state i); cbn [orb xorb]; try reflexivity; now destruct (s_shaded s).
Qed.
Lemma font_is s : (if is_deleted s then Some color_dark_red else if is_modified_tx s then Some color_dark_grey else None) = font s.
Proof. now destruct s. Qed.
Lemma look_next is i l : len is + 1 < 2 ^ 32 -> so_far is l -> so_far (is ++ [i]) (look_item i l).
Proof.
  intros B ((LN & T) & R & C & S). unfold look_item, look_row. rewrite set_shading_is. cbn [s_row s_shaded s_border s_path s_name fst snd].
  set (s1 := mkShading (w32 (s_row (snd l) + 1)) (s_shaded (snd l)) (s_border (snd l)) (s_path (snd l)) (s_name (snd l))).
  assert (N1 : news s1 i = true <-> begins (before is (List.length is)) i) by (rewrite news_is, begins_called, <- C; reflexivity).
  assert (W : w32 (s_row (snd l) + 1) = len is + 1) by (rewrite R; apply N.mod_small; exact B).
  set (d := news s1 i) in *. clearbody d. unfold so_far. cbn [fst snd s_row s_shaded s_path s_name]. rewrite W. split; [split|split; [|split]].
  - now rewrite !app_length, LN.
  - intros n j. rewrite (nth_snoc is). destruct (Nat.eqb_spec n (List.length is)) as [->|NE].
    + intros [= <-]. rewrite nth_snoc, LN, Nat.eqb_refl. exists (fst (get_formatters (item_state i) (xorb d (s_shaded (snd l))) d)). split; [reflexivity|]. unfold get_formatters.
      cbn [fst f_underline f_font f_top f_back]. split; [reflexivity|]. split; [apply font_is|]. rewrite before_snoc by lia. split; [exact N1|].
      rewrite <- LN, back_snoc, back_last, <- S by lia. rewrite LN, <- N1. fold (grey (xorb d (s_shaded (snd l)))). change color_light_grey with 0xF4F4F4.
      split; [unfold grey; now destruct (xorb _ _); [right|left]|]. unfold grey. destruct d, (s_shaded (snd l)); cbn [xorb]; split; congruence.
    + intros E. assert (L : (n < List.length is)%nat) by (apply nth_error_Some; congruence). destruct (T n j E) as (f & F & U & FO & TO & BA & BB).
      exists f. rewrite nth_error_app1 by lia. split; [exact F|]. split; [exact U|]. split; [exact FO|]. rewrite before_snoc, back_snoc by lia. tauto.
  - unfold len. rewrite app_length. cbn [List.length]. lia.
  - unfold last_called. rewrite rev_app_distr. cbn [rev app]. now destruct (called i).
  - unfold last_back. rewrite rev_app_distr. cbn [rev app get_formatters f_back]. reflexivity.
Qed.
Lemma looks_so_far is : len is < 2 ^ 32 -> so_far is (look_each look_item is ([], new_shading)).
Proof.
  induction is as [|i is IH] using rev_ind; intros B.
  - split; [split; [reflexivity|]; intros [|n] i; discriminate|]. repeat split.
  - rewrite look_app. cbn [look_each]. assert (len (is ++ [i]) = len is + 1) by (unfold len; rewrite app_length; cbn [List.length]; lia). apply look_next; [lia|apply IH; lia].
Qed.
Lemma export_looks o ks : len (List.filter (kept o) (flat_map tsv_items ks)) < 2 ^ 32 -> tells_looks (List.filter (kept o) (flat_map tsv_items ks)) (xlsx_looks o ks).
Proof. intros B. rewrite looks_items. now apply looks_so_far. Qed.
(** Without recovery all items are allocated. *)
Lemma clean_states ks i : Forall clean ks -> In i (flat_map tsv_items ks) -> item_state i = Allocated.
Proof.
  intros C. rewrite (clean_tsv ks C). intros I. apply in_flat_map in I as (k & K & I). rewrite Forall_forall in C. destruct (C k K) as (A & _ & V & F).
  unfold common_items in I. rewrite V in I. destruct I as [<-|I]; [exact A|]. cbn [map app] in I. unfold value_items in I. apply in_flat_map in I as (v & J & I).
  rewrite Forall_forall in F. destruct (F v J) as (B & W). rewrite W in I. destruct I as [<-|[]]. exact B.
Qed.
Lemma plain_looks order fuel hash full buffer files p n f anc m post ks o : known_file_type buffer ->
  build order fuel hash false full buffer files = Ok p -> iterate n p f anc m post = Ok ks ->
  len (flat_map tsv_items ks) < 2 ^ 32 -> Forall (fun l => f_font (fst (snd l)) = None) (xlsx_looks o ks).
Proof.
  intros K B I L. pose proof (iterate_clean _ _ _ _ _ _ _ _ _ _ _ _ _ K B I) as C.
  assert (L' : len (List.filter (kept o) (flat_map tsv_items ks)) < 2 ^ 32).
  { eapply N.le_lt_trans; [|exact L]. unfold len. clear. induction (flat_map tsv_items ks) as [|x l IH]; [reflexivity|]. cbn [List.filter List.length]. destruct (kept o x); cbn [List.length]; lia. }
  destruct (export_looks o ks L') as (N1 & T). apply Forall_forall. intros l IL. apply In_nth_error in IL as (r & R).
  assert (E : exists i, nth_error (List.filter (kept o) (flat_map tsv_items ks)) r = Some i).
  { destruct (nth_error (List.filter _ _) r) eqn:E; [eauto|]. apply nth_error_None in E. assert (r < List.length (xlsx_looks o ks))%nat by (apply nth_error_Some; congruence). lia. }
  destruct E as (i & E). destruct (T r i E) as (g & G & _ & FO & _). rewrite G in R. injection R as <-. cbn [fst snd]. rewrite FO.
  apply nth_error_In, filter_In in E as (E & _). now rewrite (clean_states ks i C E).
Qed.
